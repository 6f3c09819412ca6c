(** Proofs of progress of deletion. *)
Require Import Coq.ZArith.ZArith Coq.Lists.List Coq.Strings.String Coq.Strings.Ascii Coq.Bool.Bool Coq.micromega.Lia Coq.NArith.NArith Coq.micromega.ZifyBool.
From Verif Require Import CodesModel MachModel LevModel LevProofs HealthModel LifeModel LifeSpec LifeProofs LiveSpec.
Import ListNotations.
Open Scope string_scope.
Open Scope list_scope.
Open Scope Z_scope.

(** ** Markers *)
Definition starts (k : string) : Prop :=
  match k with String c _ => c = "S"%char \/ c = "D"%char \/ c = "I"%char | EmptyString => False end.

Lemma contains_plain k e b : starts k -> plain e -> contains k (e ++ b)%string = contains k b.
Proof.
  intros S P. induction e as [| c e IH]; [reflexivity|].
  inversion P as [| c0 l0 (P1 & P2 & P3) PE]; subst.
  change (String c e ++ b)%string with (String c (e ++ b)%string). cbn [contains].
  rewrite (IH PE). destruct k as [| k0 k]; [destruct S|]. cbn [String.prefix].
  destruct (ascii_dec k0 c) as [-> |]; [|reflexivity]. cbn in S. tauto.
Qed.

Definition st (d : string) : nat := stage (mkMS [] (mkOp d "" 0 "" "") (mkCur "Terminating" false 0) "").
Lemma stage_st s : cs_phase (ms_cur s) = "Terminating" -> stage s = st (lo_desc (ms_op s)).
Proof. intros E. unfold st, stage. rewrite E. reflexivity. Qed.

Ltac piece P :=
  repeat match goal with
  | |- context [contains ?k (?e ++ ?b)%string] => is_var e; rewrite (contains_plain k e b) by (try exact P; cbn; tauto)
  end.

Lemma contains_cons k c s : contains k (String c s) = (String.prefix k (String c s) || contains k s)%bool.
Proof. reflexivity. Qed.

Ltac stt P := unfold st, stage; cbn [String.append]; cbn -[String.append];
  repeat (rewrite (contains_plain _ _ _) by (try exact P; cbn; tauto)); cbn -[String.append]; try reflexivity.

Lemma st_skip e : plain e -> st ("Skipping deleteNodeVolAttachments due to - " ++ e ++ ". Moving to VM Deletion. " ++ InitiateVMDeletion)%string = 4%nat.
Proof. intros P. stt P. Qed.
Lemma st_detached e : plain e -> st ("Node Volumes for node: " ++ e ++ " are already detached. Moving to VM Deletion. " ++ InitiateVMDeletion)%string = 4%nat.
Proof. intros P. stt P. Qed.
Lemma st_nolive e : plain e -> st ("No Live VolumeAttachments for node: " ++ e ++ ". Moving to VM Deletion. " ++ InitiateVMDeletion)%string = 4%nat.
Proof. intros P. stt P. Qed.

Lemma quote_app e b : (quote e ++ b)%string = String """"%char (e ++ String """"%char b).
Proof. unfold quote. cbn. f_equal. induction e; cbn; [reflexivity | f_equal; exact IHe]. Qed.

Lemma st_deleted e : plain e -> st ("Deletion of Node Object " ++ quote e ++ " is successful. " ++ InitiateFinalizerRemoval)%string = 6%nat.
Proof. intros P. rewrite quote_app. stt P. Qed.
Lemma st_nonode e : plain e -> st ("No node object found for " ++ quote e ++ ", continuing deletion flow. " ++ InitiateFinalizerRemoval)%string = 6%nat.
Proof. intros P. rewrite quote_app. stt P. Qed.
Lemma st_nolabel e : plain e -> st ("Label " ++ quote "node" ++ " not present on machine " ++ quote e ++ " or no associated node object found, continuing deletion flow. " ++ InitiateFinalizerRemoval)%string = 6%nat.
Proof. intros P. rewrite !quote_app. stt P. Qed.

(** ** One write *)
(** How far an object is from losing the finalizer. *)
Definition rank (m : MObj) : nat :=
  if hasFin m then
    match stage (mo_status m) with
    | 0 => 8
    | 1 => if String.eqb (nodeName m) "" then 7 else 6
    | S n => 6 - n
    end%nat
  else 0%nat.
Definition left (w : World) : nat := match w_obj w with Some m => rank m | None => 0%nat end.

(** The object after a write of the status. *)
Definition like (a b : MObj) : Prop :=
  mo_dt a = mo_dt b /\ mo_name a = mo_name b /\ mo_fins a = mo_fins b /\ mo_labels a = mo_labels b.

Lemma fins_cons m : hasFin m = true -> exists f l, mo_fins m = f :: l.
Proof. unfold hasFin. destruct (mo_fins m); cbn; [discriminate|]. eauto. Qed.

Lemma store_status w m s : w_obj w = Some m -> hasFin m = true ->
  exists m', w_obj (store w m (mergeStatus m (withStatus s m))) = Some m' /\ like m' m /\ mo_status m' = s.
Proof.
  intros E H. unfold store. destruct (MObj_eq_dec m (mergeStatus m (withStatus s m))) as [EQ | NE].
  - exists m. split; [exact E|]. split; [repeat split; reflexivity|]. rewrite EQ. reflexivity.
  - eexists. destruct (fins_cons m H) as (f & l & EF). split.
    + cbn. rewrite EF. destruct (mo_dt m); reflexivity.
    + split; [repeat split; reflexivity | reflexivity].
Qed.

Lemma accepted_self w m merge x : w_obj w = Some m -> mo_rv x = mo_rv m -> mo_uid x = mo_uid m -> accepted w merge x = Some (m, merge m x).
Proof. intros E R U. unfold accepted. rewrite E, R, U, !Nat.eqb_refl. reflexivity. Qed.

Lemma exec_status env w m s k : w_obj w = Some m -> hasFin m = true -> (forall r, k r = Done) ->
  exists m', w_obj (exec env (Do (WStatus (withStatus s m)) k) w) = Some m' /\ like m' m /\ mo_status m' = s.
Proof.
  intros E H K. cbn [exec]. unfold perform, apiWrite. rewrite (accepted_self w m mergeStatus (withStatus s m) E eq_refl eq_refl).
  cbn [exec]. rewrite K. cbn. apply store_status; assumption.
Qed.

Lemma update_late now m op cur lks : now - 1800 > lo_time (ms_op (mo_status m)) ->
  machineStatusUpdate now m op cur lks = Some (mkMS (ms_conds (mo_status m)) op cur lks).
Proof.
  intros L. unfold machineStatusUpdate, isMachineStatusSimilar. cbn [ms_op].
  replace (lo_time (ms_op (mo_status m)) <? now - 1800) with true by lia. rewrite orb_true_r. reflexivity.
Qed.

(** Whether the write happens. *)
Definition moves (now : Z) (m : MObj) (d state type : string) : Prop :=
  now - 1800 > lo_time (ms_op (mo_status m)) \/
  ~ (similar d (lo_desc (ms_op (mo_status m))) = true \/ d = lo_desc (ms_op (mo_status m))) \/
  state <> lo_state (ms_op (mo_status m)) \/ type <> lo_type (ms_op (mo_status m)).

Lemma update_moves now m d state type lks : moves now m d state type ->
  machineStatusUpdate now m (mkOp d "" now state type) (ms_cur (mo_status m)) lks =
  Some (mkMS (ms_conds (mo_status m)) (mkOp d "" now state type) (ms_cur (mo_status m)) lks).
Proof.
  intros [L | M]; [apply update_late, L|]. unfold machineStatusUpdate, isMachineStatusSimilar. cbn [ms_op lo_time lo_desc lo_code lo_state lo_type ms_cur].
  destruct (_ || _)%bool; [reflexivity|].
  destruct M as [M | [M | M]].
  - destruct (similar d _); [exfalso; apply M; left; reflexivity|].
    destruct (String.eqb_spec d (lo_desc (ms_op (mo_status m)))); [exfalso; apply M; right; assumption | reflexivity].
  - destruct (String.eqb_spec state (lo_state (ms_op (mo_status m)))); [contradiction|].
    rewrite ?andb_false_r, ?andb_false_l. reflexivity.
  - destruct (String.eqb_spec type (lo_type (ms_op (mo_status m)))); [contradiction|].
    rewrite ?andb_false_r, ?andb_false_l. reflexivity.
Qed.

(** A status update either happens or leaves everything alone. *)
Lemma exec_update env w m d state type lks : w_obj w = Some m -> hasFin m = true ->
  exists m', w_obj (exec env (deletionUpdate m d state type lks) w) = Some m' /\ like m' m /\
    (mo_status m' = mo_status m /\ ~ moves (w_now w) m d state type \/
     ms_op (mo_status m') = mkOp d "" (w_now w) state type /\ ms_cur (mo_status m') = ms_cur (mo_status m)).
Proof.
  intros E H. unfold deletionUpdate, statusUpdate. cbn [exec]. unfold perform at 1.
  set (w0 := setLog w _ _).
  assert (E0 : w_obj w0 = Some m) by exact E.
  destruct (machineStatusUpdate (w_now w) m (mkOp d "" (w_now w) state type) (ms_cur (mo_status m)) lks) as [s|] eqn:U.
  - destruct (exec_status env w0 m s (fun _ => Done) E0 H (fun _ => eq_refl)) as (m' & A & B & C).
    exists m'. split; [exact A|]. split; [exact B|]. right. rewrite C.
    unfold machineStatusUpdate in U. destruct (isMachineStatusSimilar _ _ _); [discriminate|]. injection U as <-. split; reflexivity.
  - exists m. split; [exact E0|]. split; [repeat split; reflexivity|]. left. split; [reflexivity|].
    intros M. rewrite (update_moves _ _ _ _ _ _ M) in U. discriminate.
Qed.

(** ** One reconcile *)
Definition textNotFound : string := ("VM was not found at provider. Moving forward to node drain. " ++ InitiateDrain)%string.
Definition textUninit : string := ("VM instance was not initialized. Moving forward to node drain. " ++ InitiateDrain)%string.
Definition textDrained : string := ("Drain successful. " ++ InitiateVMDeletion)%string.
Definition textForced : string := ("Force Drain successful. " ++ DelVolumesAttachments)%string.
Definition textNoNode : string := ("Skipping drain as nodeName is not a valid one for machine. " ++ InitiateVMDeletion)%string.
Definition textDeleted : string := ("VM deletion was successful. " ++ InitiateNodeDeletion)%string.
Definition textNoVm : string := ("VM not found. Continuing deletion flow. " ++ InitiateNodeDeletion)%string.
Definition textsVolumes (d : string) : Prop := exists e, plain e /\
  (d = ("Skipping deleteNodeVolAttachments due to - " ++ e ++ ". Moving to VM Deletion. " ++ InitiateVMDeletion)%string \/
   d = ("Node Volumes for node: " ++ e ++ " are already detached. Moving to VM Deletion. " ++ InitiateVMDeletion)%string \/
   d = ("No Live VolumeAttachments for node: " ++ e ++ ". Moving to VM Deletion. " ++ InitiateVMDeletion)%string).
Definition textsFinal (d : string) : Prop := exists e, plain e /\
  (d = ("Deletion of Node Object " ++ quote e ++ " is successful. " ++ InitiateFinalizerRemoval)%string \/
   d = ("No node object found for " ++ quote e ++ ", continuing deletion flow. " ++ InitiateFinalizerRemoval)%string \/
   d = ("Label " ++ quote "node" ++ " not present on machine " ++ quote e ++ " or no associated node object found, continuing deletion flow. " ++ InitiateFinalizerRemoval)%string).

(** The next description, by stage. *)
Definition trans (env : Call -> Reply) (m : MObj) (d : string) : Prop :=
  match stage (mo_status m) with
  | 1 => d = InitiateDrain \/ d = textNotFound \/ d = textUninit
  | 2 => d = textNoNode \/ d = textDrained \/ d = textForced
  | 3 => textsVolumes d
  | 4 => d = textDeleted \/ d = textNoVm /\ exists t r, env (CDelete m) = PFail t r
  | 5 => textsFinal d
  | _ => False
  end%nat.

Lemma stage_volumes d : textsVolumes d -> st d = 4%nat.
Proof. intros (e & P & [-> | [-> | ->]]); [apply st_skip | apply st_detached | apply st_nolive]; exact P. Qed.
Lemma stage_final d : textsFinal d -> st d = 6%nat.
Proof. intros (e & P & [-> | [-> | ->]]); [apply st_deleted | apply st_nonode | apply st_nolabel]; exact P. Qed.

Lemma trans_up env m d : trans env m d -> (stage (mo_status m) < st d <= 6)%nat.
Proof.
  unfold trans. destruct (stage (mo_status m)) as [|[|[|[|[|[|]]]]]]; try (intros []; fail).
  - intros [-> | [-> | ->]]; vm_compute; lia.
  - intros [-> | [-> | ->]]; vm_compute; lia.
  - intros T. rewrite (stage_volumes d T). lia.
  - intros [-> | (-> & _)]; vm_compute; lia.
  - intros T. rewrite (stage_final d T). lia.
Qed.

Lemma stage_terminating s n : stage s = S n -> cs_phase (ms_cur s) = "Terminating".
Proof.
  unfold stage. destruct (String.eqb_spec (cs_phase (ms_cur s)) "Terminating"); [auto | discriminate].
Qed.

(** What one reconcile does. *)
Inductive outcome (env : Call -> Reply) (now : Z) (m : MObj) (w' : World) : Prop :=
| ORemoved : left w' = 0%nat -> outcome env now m w'
| OIdle : w_obj w' = Some m -> ~ settled env -> outcome env now m w'
| OStarted m' : w_obj w' = Some m' -> stage (mo_status m) = 0%nat -> like m' m ->
    ms_op (mo_status m') = mkOp GetVMStatus "" now "Processing" "Delete" -> phase m' = "Terminating" -> outcome env now m w'
| OLabelled m' : w_obj w' = Some m' -> stage (mo_status m) = 1%nat -> mo_dt m' = mo_dt m -> mo_name m' = mo_name m ->
    mo_fins m' = mo_fins m -> nodeName m = "" -> nodeName m' <> "" -> plain (nodeName m') ->
    mo_status m' = mo_status m -> outcome env now m w'
| OSkipped m' d ty : w_obj w' = Some m' -> like m' m -> mo_status m' = mo_status m -> trans env m d ->
    ty = "Delete" \/ ty = lo_type (ms_op (mo_status m)) ->
    ~ moves now m d "Processing" ty -> outcome env now m w'
| OMoved m' d ty : w_obj w' = Some m' -> mo_dt m' = mo_dt m -> mo_name m' = mo_name m -> mo_fins m' = mo_fins m ->
    plain (nodeName m') -> trans env m d -> ty = "Delete" \/ ty = lo_type (ms_op (mo_status m)) ->
    ms_op (mo_status m') = mkOp d "" now "Processing" ty ->
    phase m' = "Terminating" -> outcome env now m w'.

Lemma exec_do env c k w : (match c with CNow | WMeta _ | WStatus _ => False | _ => True end) ->
  exists w1, exec env (Do c k) w = exec env (k (env c)) w1 /\ w_obj w1 = w_obj w /\ w_now w1 = w_now w /\ w_next w1 = w_next w.
Proof.
  intros N. cbn [exec]. unfold perform. destruct c; try contradiction; eexists; repeat split; cbn; reflexivity.
Qed.
Lemma exec_now env k w :
  exists w1, exec env (Do CNow k) w = exec env (k (RTime (w_now w))) w1 /\ w_obj w1 = w_obj w /\ w_now w1 = w_now w /\ w_next w1 = w_next w.
Proof. cbn [exec]. unfold perform at 1. eexists. repeat split; cbn; reflexivity. Qed.

Lemma out_update env w m d ty lks : w_obj w = Some m -> hasFin m = true -> deletable m -> trans env m d ->
  ty = "Delete" \/ ty = lo_type (ms_op (mo_status m)) ->
  outcome env (w_now w) m (exec env (deletionUpdate m d "Processing" ty lks) w).
Proof.
  intros E H (D1 & D2 & D3) T Y. destruct (exec_update env w m d "Processing" ty lks E H) as (m' & A & B & C).
  destruct C as [(C1 & C2) | (C1 & C2)].
  - apply (OSkipped _ _ _ _ m' d ty); assumption.
  - destruct B as (B1 & B2 & B3 & B4). apply (OMoved _ _ _ _ m' d ty); auto.
    + unfold nodeName. rewrite B4. exact D3.
    + unfold phase. rewrite C2. unfold trans in T. destruct (stage (mo_status m)) eqn:ES; [contradiction|].
      eapply stage_terminating; exact ES.
Qed.

Lemma out_label env w m n : w_obj w = Some m -> hasFin m = true -> deletable m -> stage (mo_status m) = 1%nat ->
  nodeName m = "" -> plain n -> n <> "" -> outcome env (w_now w) m (exec env (updateMachineNodeLabel m n) w).
Proof.
  intros E H D S N P NZ.
  assert (NN : nodeName (withLabels (put "node" n (mo_labels m)) m) = n).
  { unfold nodeName, getS. cbn [withLabels mo_labels]. rewrite get_put. reflexivity. }
  unfold updateMachineNodeLabel. cbn [exec]. unfold perform, apiWrite.
  rewrite (accepted_self w m mergeMeta (withLabels (put "node" n (mo_labels m)) m) E eq_refl eq_refl).
  destruct (fins_cons m H) as (f & l & EF).
  set (n1 := mergeMeta m (withLabels (put "node" n (mo_labels m)) m)).
  set (w1 := setLog (store w m n1) _ _).
  destruct (MObj_eq_dec m n1) as [EQ | NE].
  - (* nothing changed *)
    assert (E1 : w_obj w1 = Some m). { unfold w1, store. destruct (MObj_eq_dec m n1); [exact E | contradiction]. }
    assert (W1 : w_now w1 = w_now w). { unfold w1, store. destruct (MObj_eq_dec m n1); reflexivity. }
    rewrite <- W1. apply out_update; auto. unfold trans. rewrite S. auto.
  - assert (E1 : w_obj w1 = Some (withRv (w_next w) n1)).
    { unfold w1, store. destruct (MObj_eq_dec m n1); [contradiction|]. cbn. rewrite EF. destruct (mo_dt m); reflexivity. }
    assert (W1 : w_now w1 = w_now w). { unfold w1, store. destruct (MObj_eq_dec m n1); reflexivity. }
    assert (N1 : nodeName (withRv (w_next w) n1) = n). { exact NN. }
    unfold deletionUpdate, statusUpdate. cbn [exec]. unfold perform at 1. rewrite W1.
    set (w2 := setLog w1 _ _).
    assert (E2 : w_obj w2 = Some (withRv (w_next w) n1)) by exact E1.
    assert (NONE : forall w3, w_obj w3 = Some (withRv (w_next w) n1) -> outcome env (w_now w) m w3).
    { intros w3 X. apply (OLabelled _ _ _ _ (withRv (w_next w) n1)); auto; rewrite ?N1; auto. }
    destruct (machineStatusUpdate (w_now w) m (mkOp InitiateDrain "" (w_now w) "Processing" "Delete") (ms_cur (mo_status m)) (ms_lks (mo_status m))) as [s|] eqn:U.
    + cbn [exec]. unfold perform, apiWrite, accepted. rewrite E2.
      destruct (Nat.eqb (mo_rv (withRv (w_next w) n1)) (mo_rv (withStatus s m)) && Nat.eqb (mo_uid (withRv (w_next w) n1)) (mo_uid (withStatus s m)))%bool.
      * set (o := withRv (w_next w) n1) in *.
        assert (HO : hasFin o = true) by exact H.
        destruct (store_status w2 o s E2 HO) as (m' & A & (B1 & B2 & B3 & B4) & C).
        assert (UU : s = mkMS (ms_conds (mo_status m)) (mkOp InitiateDrain "" (w_now w) "Processing" "Delete") (ms_cur (mo_status m)) (ms_lks (mo_status m))).
        { unfold machineStatusUpdate in U. destruct (isMachineStatusSimilar _ _ _); [discriminate|]. injection U as <-. reflexivity. }
        apply (OMoved _ _ _ _ m' InitiateDrain "Delete"); auto.
        -- unfold nodeName. rewrite B4. change (plain (nodeName o)). rewrite N1. exact P.
        -- unfold trans. rewrite S. auto.
        -- rewrite C, UU. reflexivity.
        -- unfold phase. rewrite C, UU. cbn [ms_cur]. eapply stage_terminating; exact S.
      * apply NONE. exact E2.
    + apply NONE. exact E2.
Qed.

Lemma not_found_ok t : In (s_code (fst (FromError t))) [cNotFound; cUnimplemented; cUninitialized] -> snd (FromError t) = true.
Proof.
  unfold FromError. destruct (findCodeAndMessage t) as [(c & msg) |]; [reflexivity|]. cbn. intros [X | [X | [X | []]]]; discriminate.
Qed.

Lemma out_termination cf env w m : w_obj w = Some m -> deletable m -> hasFin m = true ->
  (forall c, success c (env c)) ->
  outcome env (w_now w) m (exec env (reconcileTermination cf m) w).
Proof.
  intros E D H S. unfold reconcileTermination.
  destruct (exec_do env CClass (fun r => match r with RUnit => triggerDeletionFlow cf m | _ => Done end) w I) as (w1 & -> & E1 & W1 & _).
  rewrite (S CClass). rewrite E in E1. rewrite <- W1. clear w W1 E. rename w1 into w, E1 into E.
  unfold triggerDeletionFlow. rewrite H. cbn [negb].
  assert (START : stage (mo_status m) = 0%nat -> outcome env (w_now w) m (exec env (setMachineTerminationStatus m) w)).
  { intros S0. unfold setMachineTerminationStatus.
    match goal with |- context [exec env (Do CNow ?k) w] => destruct (exec_now env k w) as (w1 & -> & E1 & W1 & _) end.
    rewrite E in E1. match goal with |- context [WStatus (withStatus ?s m)] => destruct (exec_status env w1 m s (fun _ => Done) E1 H (fun _ => eq_refl)) as (m' & A & B & C) end.
    apply (OStarted _ _ _ _ m'); auto; [rewrite C | unfold phase; rewrite C]; reflexivity. }
  assert (SD : stage (mo_status m) = if negb (String.eqb (phase m) "Terminating") then 0%nat
    else if contains GetVMStatus (desc m) then 1%nat else if contains InitiateDrain (desc m) then 2%nat
    else if contains DelVolumesAttachments (desc m) then 3%nat else if contains InitiateVMDeletion (desc m) then 4%nat
    else if contains InitiateNodeDeletion (desc m) then 5%nat else if contains InitiateFinalizerRemoval (desc m) then 6%nat else 0%nat) by reflexivity.
  destruct (negb (String.eqb (phase m) "Terminating")); [apply START, SD|].
  destruct (contains GetVMStatus (desc m)).
  { unfold updateMachineStatusAndNodeLabel. destruct (String.eqb_spec (nodeName m) "") as [N | N]; cbn [negb].
    - match goal with |- context [exec env (Do (CFindNode m) ?k) w] => destruct (exec_do env (CFindNode m) k w I) as (w1 & -> & E1 & W1 & _) end.
      rewrite E in E1. rewrite <- W1.
      destruct (S (CFindNode m)) as [(n & -> & P & NZ) | (e & ->)]; [apply out_label; auto|].
      match goal with |- context [exec env (Do (CGetStatus m) ?k) w1] => destruct (exec_do env (CGetStatus m) k w1 I) as (w2 & -> & E2 & W2 & _) end.
      rewrite E1 in E2. rewrite <- W2. pose proof (S (CGetStatus m)) as G. cbn [success] in G.
      destruct (env (CGetStatus m)) as [| | | | | | | | n p l | text resp]; try contradiction.
      + apply out_label; tauto.
      + unfold statusFailure. pose proof (not_found_ok text G) as O. destruct (FromError text) as (stt0 & ok). cbn [fst snd] in *. subst ok. cbn [negb].
        destruct G as [G | [G | [G | []]]]; rewrite <- G; cbn [N.eqb Pos.eqb orb].
        all: apply out_update; auto; unfold trans; rewrite SD; auto.
    - apply out_update; auto. unfold trans. rewrite SD. auto. }
  destruct (contains InitiateDrain (desc m)).
  { unfold drainNode. destruct (String.eqb_spec (nodeName m) "") as [N | N].
    - apply out_update; auto. unfold trans. rewrite SD. left. reflexivity.
    - match goal with |- context [exec env (Do CNow ?k) w] => destruct (exec_now env k w) as (w1 & -> & E1 & W1 & _) end.
      rewrite E in E1. destruct (mo_dt m) as [dt|] eqn:DT; [|destruct D as (D & _); congruence].
      remember (notReadyLong (w_now w) m || String.eqb (getS "force-deletion" (mo_labels m)) "True" || (0 <? (w_now w - cf_drain cf) - dt))%bool as force.
      match goal with |- context [exec env (Do (CNodeCond m) ?k) w1] => destruct (exec_do env (CNodeCond m) k w1 I) as (w2 & -> & E2 & W2 & _) end.
      rewrite (S (CNodeCond m)). unfold runDrain.
      match goal with |- context [exec env (Do (CDrain m force) ?k) w2] => destruct (exec_do env (CDrain m force) k w2 I) as (w3 & -> & E3 & W3 & _) end.
      rewrite (S (CDrain m force)). rewrite <- W1, <- W2, <- W3. rewrite E2, E1 in E3.
      destruct force; (apply out_update; auto; unfold trans; rewrite SD; auto). }
  destruct (contains DelVolumesAttachments (desc m)).
  { unfold deleteNodeVolAttachments.
    match goal with |- context [exec env (Do (CVolumes m) ?k) w] => destruct (exec_do env (CVolumes m) k w I) as (w1 & -> & E1 & W1 & _) end.
    rewrite E in E1. rewrite <- W1. assert (PN : plain (nodeName m)) by apply D.
    destruct (S (CVolumes m)) as [(b & EB) | (e & EB & P)]; rewrite EB.
    - destruct b.
      + match goal with |- context [exec env (Do (CLiveVA m) ?k) w1] => destruct (exec_do env (CLiveVA m) k w1 I) as (w2 & -> & E2 & W2 & _) end.
        rewrite E1 in E2. rewrite <- W2. destruct (S (CLiveVA m)) as ([|] & EL); rewrite EL.
        { match goal with |- context [exec env (Do (CDelVA m) ?k) w2] => destruct (exec_do env (CDelVA m) k w2 I) as (w3 & -> & E3 & _ & _) end.
          apply OIdle; [cbn [exec]; congruence|]. intros Z. rewrite (Z m EB) in EL. discriminate. }
        apply out_update; auto. unfold trans. rewrite SD. exists (nodeName m). auto.
      + apply out_update; auto. unfold trans. rewrite SD. exists (nodeName m). auto.
    - apply out_update; auto. unfold trans. rewrite SD. exists e. auto. }
  destruct (contains InitiateVMDeletion (desc m)).
  { unfold deleteVM.
    match goal with |- context [exec env (Do (CDelete m) ?k) w] => destruct (exec_do env (CDelete m) k w I) as (w1 & -> & E1 & W1 & _) end.
    rewrite E in E1. rewrite <- W1. pose proof (S (CDelete m)) as G. cbn [success] in G.
    destruct (env (CDelete m)) as [| | | | | | | | n p l | text resp] eqn:EE; try contradiction.
    - apply out_update; auto. unfold trans. rewrite SD. left. reflexivity.
    - cbn [vm_gone] in G. unfold deleteFailure.
      assert (O : snd (FromError text) = true) by (apply not_found_ok; left; symmetry; exact G).
      destruct (FromError text) as (stt0 & ok). cbn [fst snd] in *. subst ok. rewrite G. cbn [N.eqb Pos.eqb orb].
      apply out_update; auto. unfold trans. rewrite SD. right. split; [reflexivity|]. eauto. }
  destruct (contains InitiateNodeDeletion (desc m)).
  { unfold deleteNodeObject. destruct (String.eqb_spec (nodeName m) "") as [N | N]; cbn [negb].
    - apply out_update; auto. unfold trans. rewrite SD. exists (mo_name m). split; [apply D|]. auto.
    - match goal with |- context [exec env (Do (CDeleteNode m) ?k) w] => destruct (exec_do env (CDeleteNode m) k w I) as (w1 & -> & E1 & W1 & _) end.
      rewrite E in E1. rewrite <- W1. assert (PN : plain (nodeName m)) by apply D.
      destruct (S (CDeleteNode m)) as [-> | (e & ->)]; (apply out_update; auto; unfold trans; rewrite SD; exists (nodeName m); auto). }
  destruct (contains InitiateFinalizerRemoval (desc m)); [|apply START, SD].
  unfold deleteMachineFinalizers. rewrite H. apply ORemoved. cbn [exec]. unfold perform, apiWrite.
  rewrite (accepted_self w m mergeMeta (withFins (filter (fun f => negb (String.eqb MCM f)) (mo_fins m)) m) E eq_refl eq_refl).
  cbn [exec]. unfold left. cbn [setLog w_obj].
  set (n1 := mergeMeta m _).
  assert (HF : hasFin n1 = false).
  { unfold hasFin, n1. cbn [mergeMeta mo_fins withFins]. induction (mo_fins m) as [| f l IH]; [reflexivity|].
    cbn [filter]. destruct (String.eqb MCM f) eqn:EF; cbn [negb existsb]; [exact IH | rewrite EF; exact IH]. }
  unfold store. destruct (MObj_eq_dec m n1) as [EQ | NE]; [rewrite <- EQ in HF; congruence|].
  cbn [w_obj]. destruct (mo_dt (withRv (w_next w) n1)); [destruct (mo_fins (withRv (w_next w) n1)) eqn:EF|]; try reflexivity.
  all: unfold rank; replace (hasFin (withRv (w_next w) n1)) with (hasFin n1) by reflexivity; rewrite HF; reflexivity.
Qed.


Lemma rank_max m : (rank m <= 8)%nat.
Proof. unfold rank. destruct (hasFin m); [|lia]. destruct (stage (mo_status m)) as [|[|n]]; try lia. destruct (String.eqb _ _); lia. Qed.

Lemma hasFin_like a b : mo_fins a = mo_fins b -> hasFin a = hasFin b.
Proof. unfold hasFin. intros ->. reflexivity. Qed.

(** Progress in terms of the rank. *)
Definition opTime (m : MObj) : Z := lo_time (ms_op (mo_status m)).

Lemma outcome_rank env now m w' : hasFin m = true -> deletable m -> outcome env now m w' ->
  (left w' = 0%nat) \/
  (exists m', w_obj w' = Some m' /\ hasFin m' = true /\ deletable m' /\ mo_status m' = mo_status m /\ rank m' = rank m /\
     (~ settled env \/ exists d ty, trans env m d /\ (ty = "Delete" \/ ty = lo_type (ms_op (mo_status m))) /\ ~ moves now m d "Processing" ty)) \/
  (exists m', w_obj w' = Some m' /\ hasFin m' = true /\ deletable m' /\ (rank m' < rank m)%nat /\
     (mo_status m' = mo_status m \/ opTime m' = now /\ phase m' = "Terminating" /\ (desc m' = GetVMStatus \/ trans env m (desc m')))).
Proof.
  intros H (D1 & D2 & D3) O. destruct O as [Z | E Z | m' E S0 (L1 & L2 & L3 & L4) OP PH | m' E S1 DT NM FI N N' P ST | m' d ty E (L1 & L2 & L3 & L4) ST T Y M | m' d ty E DT NM FI P T Y OP PH].
  - left; exact Z.
  - right; left. exists m. split; [exact E|]. split; [exact H|]. split; [split; auto|]. split; [reflexivity|]. split; [reflexivity|]. left; exact Z.
  - right; right. exists m'. split; [exact E|]. rewrite (hasFin_like _ _ L3). split; [exact H|].
    split. { split; [congruence|]. unfold nodeName. rewrite L2, L4. split; assumption. }
    assert (S1 : stage (mo_status m') = 1%nat). { rewrite stage_st by exact PH. rewrite OP. vm_compute. reflexivity. }
    split.
    + unfold rank. rewrite (hasFin_like _ _ L3), H, S0, S1. destruct (String.eqb _ _); lia.
    + right. unfold opTime, desc. rewrite OP. split; [reflexivity|]. split; [exact PH|]. left; reflexivity.
  - right; right. exists m'. split; [exact E|]. rewrite (hasFin_like _ _ FI). split; [exact H|].
    split. { split; [congruence|]. rewrite NM. split; assumption. }
    split; [|left; exact ST]. unfold rank. rewrite (hasFin_like _ _ FI), H, ST, S1, N.
    destruct (String.eqb_spec (nodeName m') ""); [contradiction|]. cbn. lia.
  - right; left. exists m'. split; [exact E|]. rewrite (hasFin_like _ _ L3). split; [exact H|].
    split. { split; [congruence|]. unfold nodeName. rewrite L2, L4. split; assumption. }
    split; [exact ST|]. split.
    + unfold rank, nodeName. rewrite (hasFin_like _ _ L3), ST, L4. reflexivity.
    + right. exists d, ty. auto.
  - right; right. exists m'. split; [exact E|]. rewrite (hasFin_like _ _ FI). split; [exact H|].
    split. { split; [congruence|]. rewrite NM. split; assumption. }
    assert (SM : stage (mo_status m') = st d). { rewrite stage_st by exact PH. rewrite OP. reflexivity. }
    pose proof (trans_up _ _ _ T) as U. split.
    + unfold rank. rewrite (hasFin_like _ _ FI), H, SM. 
      assert (S0 : stage (mo_status m) <> 0%nat). { intros Q. unfold trans in T. rewrite Q in T. exact T. }
      destruct (stage (mo_status m)) as [|[|a]]; [contradiction | |]; (destruct (st d) as [|[|b]]; try lia); try (destruct (String.eqb (nodeName m) ""); lia).
    + right. unfold opTime, desc. rewrite OP. split; [reflexivity|]. split; [exact PH|]. right. exact T.
Qed.

Lemma left_0 w : left w = 0%nat -> forall m, w_obj w = Some m -> hasFin m = false.
Proof.
  intros L m E. unfold left in L. rewrite E in L. unfold rank in L. destruct (hasFin m); [|reflexivity].
  exfalso. pose proof (stage_max (mo_status m)). destruct (stage (mo_status m)) as [|[|n]]; try (destruct (String.eqb _ _)); lia.
Qed.

Lemma exec_nofin cf env w m : w_obj w = Some m -> hasFin m = false -> w_obj (exec env (reconcileTermination cf m) w) = Some m.
Proof.
  intros E H. unfold reconcileTermination.
  match goal with |- context [exec env (Do CClass ?k) w] => destruct (exec_do env CClass k w I) as (w1 & -> & E1 & _ & _) end.
  rewrite E in E1. destruct (env CClass); cbn [exec]; auto. unfold triggerDeletionFlow. rewrite H. exact E1.
Qed.

Lemma round_0 cf w r : left w = 0%nat -> left (round cf w r) = 0%nat.
Proof.
  intros L. unfold round. destruct (w_obj w) as [m|] eqn:E.
  - unfold left. rewrite (exec_nofin cf (snd r) (onTime (fst r) w) m).
    + unfold left in L. rewrite E in L. exact L.
    + exact E.
    + eapply left_0; eauto.
  - unfold left. cbn. rewrite E. reflexivity.
Qed.
Lemma rounds_0 cf l : forall w, left w = 0%nat -> left (rounds cf w l) = 0%nat.
Proof. induction l as [| r l IH]; intros w L; [exact L|]. apply (IH (round cf w r)), round_0, L. Qed.

(** State of the argument: [k] reconciles that count are still to come, the last one was
    at time [t], it is now time [s]. *)
Definition good (k : nat) (t s : Z) (w : World) : Prop :=
  left w = 0%nat \/
  exists m, w_obj w = Some m /\ hasFin m = true /\ deletable m /\ opTime m <= s /\
    ((rank m <= k)%nat /\ opTime m <= t \/ (rank m < k)%nat).

Lemma good_round cf k t s w r : good k t s w -> t <= s -> fst r >= s -> succeeds r ->
  good k t (fst r) (round cf w r) /\
  (settled (snd r) -> fst r > t + 1800 -> good (Nat.pred k) (fst r) (fst r) (round cf w r)).
Proof.
  intros [G | (m & E & H & D & T1 & G)] TS RS S.
  - pose proof (round_0 cf w r G). split; [left; assumption | intros; left; assumption].
  - assert (ER : round cf w r = exec (snd r) (reconcileTermination cf m) (onTime (fst r) w)) by (unfold round; rewrite E; reflexivity).
    pose proof (out_termination cf (snd r) (onTime (fst r) w) m E D H S) as O. rewrite <- ER in O.
    change (w_now (onTime (fst r) w)) with (fst r) in O.
    destruct (outcome_rank _ _ _ _ H D O) as [Z | [(m' & E' & H' & D' & ST & RK & WHY) | (m' & E' & H' & D' & RK & ST)]].
    + split; [left; exact Z | intros; left; exact Z].
    + assert (OT : opTime m' = opTime m) by (unfold opTime; rewrite ST; reflexivity). split.
      * right. exists m'. rewrite OT, RK. repeat (split; [first [assumption | lia]|]). lia.
      * intros SE LATE. right. exists m'. rewrite OT, RK. repeat (split; [first [assumption | lia]|]).
        destruct G as [(G1 & G2) | G]; [|left; lia]. exfalso.
        destruct WHY as [WHY | (d & ty & _ & _ & NM)]; [contradiction|]. apply NM. left. unfold opTime in G2. lia.
    + assert (OT : opTime m' <= fst r). { destruct ST as [ST | (ST & _)]; [unfold opTime in *; rewrite ST; lia | lia]. }
      split.
      * right. exists m'. repeat (split; [first [assumption | lia]|]). right. destruct G as [(G1 & G2) | G]; lia.
      * intros SE LATE. right. exists m'. repeat (split; [first [assumption | lia]|]). left. split; [|lia]. destruct G as [(G1 & G2) | G]; lia.
Qed.

Lemma good_rounds cf : forall l k n t s w, hits t l n -> inOrder s l -> Forall succeeds l -> t <= s -> good k t s w -> (k <= n)%nat ->
  left (rounds cf w l) = 0%nat.
Proof.
  induction l as [| r l IH]; intros k n t s w HI IO SU TS G K.
  - inversion HI; subst. destruct G as [G | (m & E & H & _ & _ & G)]; [exact G|]. cbn. unfold left. rewrite E. lia.
  - destruct IO as (IO1 & IO2). inversion SU; subst. destruct (good_round cf k t s w r G TS IO1 H1) as (A & B).
    inversion HI; subst.
    + apply (IH (Nat.pred k) n0 (fst r) (fst r) (round cf w r)); auto; lia.
    + apply (IH k n t (fst r) (round cf w r)); auto; lia.
Qed.

Lemma removed cf w m l n : w_obj w = Some m -> deletable m -> Forall succeeds l -> hits (opTime m) l n -> inOrder (opTime m) l ->
  (8 <= n)%nat -> forall m', ~ protected (rounds cf w l) m'.
Proof.
  intros E D S HI IO N m' (P1 & P2).
  assert (L : left (rounds cf w l) = 0%nat).
  { destruct (hasFin m) eqn:H.
    - eapply (good_rounds cf l 8 n (opTime m) (opTime m) w HI IO S); [lia | | exact N].
      right. exists m. repeat (split; [first [assumption | lia]|]). left. split; [apply rank_max | lia].
    - apply rounds_0. unfold left. rewrite E. unfold rank. rewrite H. reflexivity. }
  pose proof (left_0 _ L _ P1) as F. unfold hasFin in F.
  assert (existsb (String.eqb MCM) (mo_fins m') = true) by (apply existsb_exists; exists MCM; split; [exact P2 | apply String.eqb_refl]).
  congruence.
Qed.

(** ** Texts that are not similar *)
Lemma string_app_length a b : String.length (a ++ b)%string = (String.length a + String.length b)%nat.
Proof. induction a; cbn; [reflexivity | rewrite IHa; reflexivity]. Qed.
Lemma la_length s : List.length (list_ascii_of_string s) = String.length s.
Proof. induction s; cbn; [reflexivity | f_equal; exact IHs]. Qed.

Lemma far_long a b : 7 * len a >= 9 * len b -> similar a b = false.
Proof.
  intros L. unfold similar. rewrite Levenshtein_lev. pose proof (lev_length (la a) (la b)) as Q.
  unfold la in Q. rewrite !la_length in Q. unfold len in *. apply Z.ltb_ge. unfold la. lia.
Qed.
Lemma far_short a b : 7 * len b >= 9 * len a -> similar a b = false.
Proof.
  intros L. unfold similar. rewrite Levenshtein_sym. rewrite Z.add_comm. apply (far_long b a) in L. exact L.
Qed.

(** The descriptions that occur if nothing fails. *)
Definition tidy (d : string) : Prop :=
  d = GetVMStatus \/ d = InitiateDrain \/ d = textNotFound \/ d = textUninit \/ d = textNoNode \/ d = textDrained \/
  d = textForced \/ textsVolumes d \/ d = textDeleted \/ textsFinal d.

Lemma volumes_len d : textsVolumes d -> len d >= 80.
Proof. intros (e & _ & [-> | [-> | ->]]); unfold len; rewrite !string_app_length; cbn; lia. Qed.
Lemma final_len d : textsFinal d -> len d >= 80.
Proof. intros (e & _ & [-> | [-> | ->]]); unfold len, quote; rewrite !string_app_length; cbn [String.length]; rewrite ?string_app_length; cbn; lia. Qed.

Lemma tidy_far env m d : phase m = "Terminating" -> tidy (desc m) -> trans env m d -> d <> textNoVm ->
  similar d (desc m) = false /\ d <> desc m.
Proof.
  intros PH T TR NV. split.
  2:{ intros ->. pose proof (trans_up _ _ _ TR) as U. rewrite stage_st in U by exact PH. unfold desc in U. lia. }
  assert (SS : stage (mo_status m) = st (desc m)) by (apply stage_st; exact PH).
  unfold trans in TR. rewrite SS in TR. destruct T as [T | [T | [T | [T | [T | [T | [T | [T | [T | T]]]]]]]]].
  8:{ rewrite (stage_volumes _ T) in TR. destruct TR as [-> | (-> & _)]; [|contradiction].
      apply far_short. pose proof (volumes_len _ T). change (len textDeleted) with 57. lia. }
  9:{ rewrite (stage_final _ T) in TR. destruct TR. }
  all: rewrite T in *; cbv beta in TR.
  all: match type of TR with match st ?x with _ => _ end => let v := eval vm_compute in (st x) in change (st x) with v in TR end; cbv iota in TR.
  - destruct TR as [-> | [-> | ->]]; vm_compute; reflexivity.
  - destruct TR as [-> | [-> | ->]]; vm_compute; reflexivity.
  - destruct TR as [-> | [-> | ->]]; vm_compute; reflexivity.
  - destruct TR as [-> | [-> | ->]]; vm_compute; reflexivity.
  - destruct TR as [-> | (-> & _)]; [vm_compute; reflexivity | contradiction].
  - destruct TR as [-> | (-> & _)]; [vm_compute; reflexivity | contradiction].
  - apply far_long. pose proof (volumes_len _ TR). change (len textForced) with 49. lia.
  - apply far_long. pose proof (final_len _ TR). change (len textDeleted) with 57. lia.
Qed.

Definition clean (m : MObj) : Prop := stage (mo_status m) = 0%nat \/ phase m = "Terminating" /\ tidy (desc m).
Definition quick (k : nat) (w : World) : Prop :=
  left w = 0%nat \/ exists m, w_obj w = Some m /\ hasFin m = true /\ deletable m /\ clean m /\ (rank m <= k)%nat.

Lemma trans_tidy env m d : trans env m d -> d <> textNoVm -> tidy d.
Proof.
  intros T N. unfold trans in T. unfold tidy.
  destruct (stage (mo_status m)) as [|[|[|[|[|[|]]]]]]; tauto.
Qed.

Lemma quick_round cf k w r : quick k w -> succeeds r -> deletes r ->
  quick k (round cf w r) /\ (settled (snd r) -> quick (Nat.pred k) (round cf w r)).
Proof.
  intros [G | (m & E & H & D & C & K)] S DE.
  - pose proof (round_0 cf w r G). split; [left; assumption | intros; left; assumption].
  - assert (ER : round cf w r = exec (snd r) (reconcileTermination cf m) (onTime (fst r) w)) by (unfold round; rewrite E; reflexivity).
    pose proof (out_termination cf (snd r) (onTime (fst r) w) m E D H S) as O. rewrite <- ER in O.
    change (w_now (onTime (fst r) w)) with (fst r) in O.
    assert (NV : forall d, trans (snd r) m d -> d <> textNoVm).
    { intros d T ->. unfold trans in T. destruct (stage (mo_status m)) as [|[|[|[|[|[|]]]]]]; try contradiction.
      - destruct T as [T | [T | T]]; discriminate T.
      - destruct T as [T | [T | T]]; discriminate T.
      - pose proof (stage_volumes _ T) as X. vm_compute in X. discriminate X.
      - destruct T as [T | (_ & t & q & T)]; [discriminate T|]. destruct (DE m) as (a & b & c & X). congruence.
      - pose proof (stage_final _ T) as X. vm_compute in X. discriminate X. }
    destruct (outcome_rank _ _ _ _ H D O) as [Z | [(m' & E' & H' & D' & ST & RK & WHY) | (m' & E' & H' & D' & RK & ST)]].
    + split; [left; exact Z | intros; left; exact Z].
    + assert (C' : clean m') by (unfold clean, phase, desc in *; rewrite ST; exact C). split.
      * right. exists m'. rewrite RK. auto.
      * intros SE. exfalso. destruct WHY as [WHY | (d & ty & T & _ & NM)]; [contradiction|].
        destruct C as [C | (C1 & C2)]; [unfold trans in T; rewrite C in T; exact T|].
        destruct (tidy_far _ _ _ C1 C2 T (NV d T)) as (F1 & F2). apply NM. right. left. intros [X | X]; [unfold desc in F1; congruence | contradiction].
    + assert (C' : clean m').
      { destruct ST as [ST | (_ & PH & [ST | ST])].
        - unfold clean, phase, desc in *. rewrite ST. exact C.
        - right. split; [exact PH|]. left. exact ST.
        - right. split; [exact PH|]. eapply trans_tidy; [exact ST | apply NV, ST]. }
      split; [|intros SE]; right; exists m'; repeat (split; [assumption|]); lia.
Qed.

Lemma quick_rounds cf : forall l k n w, settling l n -> Forall succeeds l -> Forall deletes l -> quick k w -> (k <= n)%nat ->
  left (rounds cf w l) = 0%nat.
Proof.
  induction l as [| r l IH]; intros k n w HI SU DE G K.
  - inversion HI; subst. destruct G as [G | (m & E & H & _ & _ & G)]; [exact G|]. cbn. unfold left. rewrite E. lia.
  - inversion SU; subst. inversion DE; subst. destruct (quick_round cf k w r G H1 H3) as (A & B). inversion HI; subst.
    + apply (IH (Nat.pred k) n0 (round cf w r)); auto; lia.
    + apply (IH k n (round cf w r)); auto; lia.
Qed.

Lemma removed_quickly cf w m l n : w_obj w = Some m -> deletable m -> phase m <> "Terminating" ->
  Forall succeeds l -> Forall deletes l -> settling l n -> (8 <= n)%nat -> forall m', ~ protected (rounds cf w l) m'.
Proof.
  intros E D PH S DE HI N m' (P1 & P2).
  assert (L : left (rounds cf w l) = 0%nat).
  { destruct (hasFin m) eqn:H.
    - eapply (quick_rounds cf l 8 n w HI S DE); [|exact N].
      right. exists m. split; [assumption|]. split; [assumption|]. split; [assumption|]. split; [|apply rank_max].
      left. apply stage_phase. exact PH.
    - apply rounds_0. unfold left. rewrite E. unfold rank. rewrite H. reflexivity. }
  pose proof (left_0 _ L _ P1) as F. unfold hasFin in F.
  assert (existsb (String.eqb MCM) (mo_fins m') = true) by (apply existsb_exists; exists MCM; split; [exact P2 | apply String.eqb_refl]).
  congruence.
Qed.

(** ** A round is a sequence of steps of the world *)
Lemma store_slots w c t o n : store (setSlots w c t) o n = setSlots (store w o n) c t.
Proof. unfold store. destruct (MObj_eq_dec o n); reflexivity. Qed.
Lemma perform_slots w c t who cl r f vms w' r' : perform w who cl r f vms = (w', r') ->
  perform (setSlots w c t) who cl r f vms = (setSlots w' c t, r').
Proof.
  unfold perform. intros E.
  assert (G : forall merge x, apiWrite (setSlots w c t) merge x f =
              (setSlots (fst (apiWrite w merge x f)) c t, snd (apiWrite w merge x f))).
  { intros merge x. unfold apiWrite. change (accepted (setSlots w c t) merge x) with (accepted w merge x).
    destruct f; destruct (accepted w merge x) as [(o & n) |]; cbn [fst snd]; rewrite ?store_slots; reflexivity. }
  destruct cl; try (injection E as <- <-; reflexivity).
  - rewrite G. destruct (apiWrite w mergeMeta m f). injection E as <- <-. reflexivity.
  - rewrite G. destruct (apiWrite w mergeStatus m f). injection E as <- <-. reflexivity.
Qed.

(** A step of the termination queue whose write, if any, is stored. *)
Definition applied (op : Op) : Prop := match op with OStep true _ Applied _ => True | _ => False end.

Lemma exec_steps cf env : forall p w c,
  exists ops t, Forall applied ops /\ run cf (setSlots w c (Some p)) ops = setSlots (exec env p w) c (Some t) /\ (t = Done \/ t = Panic).
Proof.
  intros p. induction p as [| | cl k IH]; intros w c.
  - exists [], Done. split; [constructor|]. split; [reflexivity | auto].
  - exists [], Panic. split; [constructor|]. split; [reflexivity | auto].
  - cbn [exec]. destruct (perform w QT cl (env cl) Applied (w_vms w)) as (w' & r') eqn:EP.
    destruct (IH r' w' c) as (ops & t & A & B & C).
    exists (OStep true (env cl) Applied (w_vms w) :: ops), t. split; [constructor; [exact I | exact A]|]. split; [|exact C].
    change (run cf (setSlots w c (Some (Do cl k))) (OStep true (env cl) Applied (w_vms w) :: ops)) with
      (run cf (step cf (setSlots w c (Some (Do cl k))) (OStep true (env cl) Applied (w_vms w))) ops).
    assert (E : step cf (setSlots w c (Some (Do cl k))) (OStep true (env cl) Applied (w_vms w)) = setSlots w' c (Some (k r'))).
    { cbn [step]. change (w_t (setSlots w c (Some (Do cl k)))) with (Some (Do cl k)). cbv iota.
      rewrite (perform_slots w c (Some (Do cl k)) QT cl (env cl) Applied (w_vms w) w' r' EP). reflexivity. }
    rewrite E. exact B.
Qed.

Lemma round_steps cf w r m : w_obj w = Some m -> w_t w = None -> w_tq w = true ->
  exists ops t, Forall applied ops /\ (t = Done \/ t = Panic) /\
    run cf (onTime (fst r) w) (OStart true :: ops) = setSlots (round cf w r) (w_c w) (Some t).
Proof.
  intros E T Q. unfold round. rewrite E.
  destruct (exec_steps cf (snd r) (reconcileTermination cf m) (onTime (fst r) w) (w_c w)) as (ops & t & A & B & C).
  exists ops, t. split; [exact A|]. split; [exact C|]. rewrite <- B.
  change (run cf (onTime (fst r) w) (OStart true :: ops)) with (run cf (step cf (onTime (fst r) w) (OStart true)) ops).
  assert (G : step cf (onTime (fst r) w) (OStart true) = setSlots (onTime (fst r) w) (w_c w) (Some (reconcileTermination cf m))).
  { unfold step, start. cbv iota. change (w_t (onTime (fst r) w)) with (w_t w). change (w_tq (onTime (fst r) w)) with (w_tq w).
    change (w_view (onTime (fst r) w)) with (w_obj w). rewrite T, Q, E. reflexivity. }
  rewrite G. reflexivity.
Qed.
