(** The status of a MachineSet (C96), the mark on a machine to be deleted (C97): theorems. *)
Require Import List String Bool ZArith Lia.
From Verif Require Import Types StatusModel MachModel PutModel PutSpec PutProofs.
Import ListNotations.
Open Scope string_scope.
Open Scope list_scope.
Open Scope Z_scope.

(** C96: in every history the controller changes nothing but the status of the set, and
    what it writes is the status computed from a state that the set was in, together with
    the generation of that state. *)
Theorem C96_true : forall ops op, controllers op ->
  w_set (pstep (prun pinit ops) op) = w_set (prun pinit ops) \/
  exists o o' rd now l err, stored (prun pinit ops) o /\ stored (pstep (prun pinit ops) op) o' /\
    past ops rd /\ onlyStatus o' o /\ p_status o' = computed rd now l err /\ p_obs o' = p_gen rd.
Proof. exact write_true. Qed.
Print Assumptions C96_true.

(* A set is created, read, changed by others, and its status is written in the second try. *)
Definition p_m (name phase : string) : SMachine := mkSM name [("a", "b")] phase "" "" "" None.
Definition p_hist : list POp :=
  [ECreate 2 [("a", "b")] 0; OBegin; EMeta 1; OCompute 5 [p_m "m1" "Running"; p_m "m2" "Pending"] None; OPut Applied; ESpec 3 [("a", "b")]; OGet true].
Example C96_true_case : option_map (fun x => (p_gen (snd x), p_obs (snd x), p_status (snd x))) (w_set (pstep (prun pinit p_hist) (OPut Applied))) =
  Some (2, 1, mkSStatus 2 2 1 1 None []).
Proof. vm_compute. reflexivity. Qed.

(** C96, as long as no set is re-created under the name while a reconcile of it runs: the
    observed generation never exceeds the generation and never goes back.
    Partial: otherwise refuted (C96_recreated_refuted). *)
Theorem C96_observed_partial : forall ops op, calm pinit (ops ++ [op]) ->
  forall o o', stored (prun pinit ops) o -> stored (prun pinit (ops ++ [op])) o' -> p_uid o = p_uid o' ->
  p_obs o <= p_obs o' <= p_gen o'.
Proof.
  intros ops op C o o' S S' U. pose proof (calm_inv _ C) as [A B _ _]. destruct (A o' S') as (_ & A2 & _).
  destruct (B o (past_more _ [op] _ (past_now _ _ S))) as (_ & B2). destruct (B2 o' S' (eq_sym U)) as (_ & L & _). lia.
Qed.
Print Assumptions C96_observed_partial.

(** C96, likewise: once the observed generation is the generation, the counts and failed
    machines shown are those computed for the present number of replicas and template.
    Partial: otherwise refuted (C96_recreated_refuted). *)
Theorem C96_settled_partial : forall ops, calm pinit ops -> forall o, stored (prun pinit ops) o -> p_obs o = p_gen o ->
  exists rd now l err, past ops rd /\ p_uid rd = p_uid o /\ p_replicas rd = p_replicas o /\ p_tmpl rd = p_tmpl o /\
    sameCounts (p_status o) (computed rd now l err).
Proof.
  intros ops C o S E. pose proof (calm_inv _ C) as [A B _ D]. destruct (A o S) as (_ & A2 & A3).
  destruct (D o S) as [(Z & _)|(rd & now & l & err & P & U & G & T)]; [lia|]. exists rd, now, l, err. split; [exact P|]. split; [exact U|].
  destruct (B rd P) as (_ & B2). destruct (B2 o S (eq_sym U)) as (_ & _ & K). destruct K as (K1 & K2); [congruence|]. auto.
Qed.
Print Assumptions C96_settled_partial.

Example C96_settled_case : calm pinit (p_hist ++ [OPut Applied; OBegin; OCompute 9 [p_m "m1" "Running"] None; OPut Applied]) /\
  exists o, stored (prun pinit (p_hist ++ [OPut Applied; OBegin; OCompute 9 [p_m "m1" "Running"] None; OPut Applied])) o /\ p_obs o = p_gen o /\ p_gen o = 2.
Proof. split; [cbn; tauto|]. eexists. split; [eexists; vm_compute; reflexivity|]. vm_compute. auto. Qed.

(** C96: a reconcile whose calls succeed ends with the computed status stored, whatever
    others change between its reading and its first try to write, if they are at rest for
    the second; it writes nothing exactly if everything shown is already right. *)
Theorem C96_succeeds : forall w o now l err e1 e2, w_pc w = Idle -> stored w o -> Forall harmless e1 -> Forall harmless e2 ->
  let w1 := prun w (OBegin :: e1 ++ OCompute now l err :: e2) in
  let w2 := prun w1 [OPut Applied; OGet true; OPut Applied] in
  w_pc w2 = Idle /\
  ((sameCounts (p_status o) (computed o now l err) /\ st_conds (p_status o) = st_conds (computed o now l err) /\ p_gen o = p_obs o /\ w2 = w1) \/
   (exists o', stored w2 o' /\ p_status o' = computed o now l err /\ p_obs o' = p_gen o)).
Proof. exact succeeds. Qed.
Print Assumptions C96_succeeds.

Example C96_succeeds_case : let w := prun pinit [ECreate 2 [("a", "b")] 0] in
  w_pc w = Idle /\ (exists o, stored w o) /\ Forall harmless [EMeta 4; ESpec 5 []].
Proof. split; [reflexivity|]. split; [do 2 eexists; reflexivity | repeat constructor]. Qed.

(** C96: nothing is written when nothing changed. *)
Theorem C96_quiet : forall w o now l err ops, w_pc w = Idle -> stored w o ->
  sameCounts (p_status o) (computed o now l err) -> st_conds (p_status o) = st_conds (computed o now l err) -> p_gen o = p_obs o ->
  Forall (fun op => match op with OPut _ | OGet _ => True | _ => False end) ops ->
  w_set (prun w (OBegin :: OCompute now l err :: ops)) = w_set w.
Proof.
  intros w o now l err ops P (v & S) A B C F. change (OBegin :: OCompute now l err :: ops) with ([OBegin; OCompute now l err] ++ ops). rewrite run_app.
  assert (E : prun w [OBegin; OCompute now l err] = goto (mkPW (w_set w) (w_next w) (w_uids w) (Read o) v) Idle).
  { cbn [prun fold_left pstep]. rewrite P, S. cbn [w_pc]. fold (computed o now l err). rewrite (proj2 (steady_iff o _) (conj A (conj B C))). reflexivity. }
  rewrite E, idle_stays; [reflexivity | reflexivity | exact F].
Qed.
Print Assumptions C96_quiet.

Example C96_quiet_case : exists o, let w := prun pinit (p_hist ++ [OPut Applied; OBegin; OCompute 9 [p_m "m1" "Running"] None; OPut Applied]) in
  w_pc w = Idle /\ stored w o /\ sameCounts (p_status o) (computed o 12 [p_m "m1" "Running"] None) /\ p_gen o = p_obs o.
Proof. eexists. split; [vm_compute; reflexivity|]. split; [eexists; vm_compute; reflexivity|]. vm_compute. auto 10. Qed.

(** C96 fails: a set that is re-created under the name gets the status of its predecessor,
    with an observed generation it never had (deployment_machineset_util.go 79 reads by name). *)
Theorem C96_recreated_refuted : exists ops o, stored (prun pinit ops) o /\ p_obs o > p_gen o /\ st_replicas (p_status o) = 2 /\
  (forall rd, past ops rd -> p_uid rd = p_uid o -> p_replicas rd = 7).
Proof.
  exists ([ECreate 1 [] 0; ESpec 2 []; OBegin; OCompute 5 [p_m "m1" "Running"; p_m "m2" "Running"] None; EDelete; ECreate 7 [] 0; OPut Applied; OGet true; OPut Applied]).
  eexists. split; [eexists; vm_compute; reflexivity|]. split; [vm_compute; reflexivity|]. split; [reflexivity|].
  intros rd (pre & post & E & (v & S)) U. cbn in U.
  repeat (destruct pre as [|op pre]; [cbn in S; first [discriminate S | injection S as _ <-; first [reflexivity | discriminate U]]|cbn [app] in E; first [discriminate E | injection E as <- E]]).
Qed.
Print Assumptions C96_recreated_refuted.

(** C96 fails: a condition that others add while the status is computed is lost: a set that
    was just frozen no longer says so. *)
Definition p_frozen : Cond := mkCond "Frozen" "True" 0 7 "OverShooting" "".
Theorem C96_condition_lost_refuted : exists ops o o', calm pinit (ops ++ [OPut Applied; OGet true; OPut Applied]) /\
  stored (prun pinit ops) o /\ In p_frozen (st_conds (p_status o)) /\
  stored (prun pinit (ops ++ [OPut Applied; OGet true; OPut Applied])) o' /\ st_conds (p_status o') = [].
Proof.
  exists ([ECreate 1 [] 0; OBegin; EStatus [p_frozen]; OCompute 5 [p_m "m1" "Running"] None]). do 2 eexists.
  split; [cbn; tauto|]. split; [eexists; vm_compute; reflexivity|]. split; [left; reflexivity|]. split; [eexists; vm_compute; reflexivity | reflexivity].
Qed.
Print Assumptions C96_condition_lost_refuted.

(** C97: of the machine nothing but operation and phase is changed; if the call reports
    success, the mark was stored on the machine just read; if it reports that there is
    nothing to do, the machine in the cache bears the mark already; it fails only if the
    machine cannot be read; as long as the write fails it goes on. *)
Theorem C97_marked : forall cached op cur rounds,
  let '(l, e) := updateMachineStatus cached op cur rounds in
  exists pre post, rounds = pre ++ post /\
    Forall (fun r => exists m, mr_get r = Some m /\ ~ saysSame (mr_time r) op cur cached /\ (mr_stored r = false \/ mr_answer r = false)) pre /\
    (forall x, In x l -> exists r m, In r rounds /\ mr_get r = Some m /\ mr_stored r = true /\ marks op cur m x) /\
    match e with
    | MStill => post = []
    | MErr => exists r post', post = r :: post' /\ mr_get r = None
    | MSame => exists r post', post = r :: post' /\ mr_get r <> None /\ saysSame (mr_time r) op cur cached
    | MWritten => exists r post' m x, post = r :: post' /\ mr_get r = Some m /\ mr_stored r = true /\ last l x = x /\ In x l /\ marks op cur m x
    end.
Proof. exact loop_end. Qed.
Print Assumptions C97_marked.

(** C97: the first round whose write is stored and answered ends it. *)
Theorem C97_ends : forall now cached pre r post m,
  Forall (fun r => mr_get r <> None /\ ~ saysSame (mr_time r) (mkOp "" "" now "Processing" "Delete") (mkCur "Terminating" false now) cached /\ (mr_stored r = false \/ mr_answer r = false)) pre ->
  mr_get r = Some m -> ~ saysSame (mr_time r) (mkOp "" "" now "Processing" "Delete") (mkCur "Terminating" false now) cached -> mr_stored r = true -> mr_answer r = true ->
  exists l x, markTerminating now cached (pre ++ r :: post) = (l ++ [x], MWritten) /\ phase x = "Terminating" /\ mo_uid x = mo_uid m /\
    ms_op (mo_status x) = mkOp "Deleting machine from cloud provider" "" now "Processing" "Delete" /\ cs_time (ms_cur (mo_status x)) = now.
Proof.
  intros now cached pre r post m F G N S A. unfold markTerminating.
  assert (EQ : forall t m, ~ saysSame t (mkOp "" "" now "Processing" "Delete") (mkCur "Terminating" false now) cached ->
    isMachineStatusEqual t (mkMS (ms_conds (mo_status m)) (mkOp "Deleting machine from cloud provider" "" now "Processing" "Delete") (mkCur "Terminating" false now) (ms_lks (mo_status m))) cached = false).
  { intros t m0 K. destruct (isMachineStatusEqual _ _ _) eqn:Q; [|reflexivity]. apply equal_iff in Q. destruct K. exact Q. }
  induction F as [|r0 pre (G0 & N0 & W0) F IH]; cbn [app updateMachineStatus].
  - rewrite G, (EQ _ _ N), S, A. exists []. eexists. split; [reflexivity|]. repeat split.
  - destruct (mr_get r0) as [m0|]; [|destruct (G0 eq_refl)]. rewrite (EQ _ _ N0). replace (mr_stored r0 && mr_answer r0) with false.
    2:{ symmetry. apply andb_false_iff. exact W0. }
    destruct IH as (l & x & -> & K). destruct (mr_stored r0); eexists (_ ++ l), x; (split; [rewrite <- app_assoc; reflexivity | exact K]).
Qed.
Print Assumptions C97_ends.

Definition p_mach (uid : nat) (dt : option Z) (d ph : string) : MObj :=
  mkMO "m" uid 4 10 dt ["machine"] [] [] "vm-1" (mkMS [] (mkOp d "" 100 "Processing" "Delete") (mkCur ph false 90) "").
Example C97_case : let running := mkMS [] (mkOp "joined" "" 20 "Successful" "Create") (mkCur "Running" false 20) "" in
  exists x, markTerminating 100 running [mkMRound (Some (p_mach 1 None "" "Running")) 100 false true; mkMRound (Some (p_mach 1 None "" "Running")) 101 true true] = ([x], MWritten).
Proof. eexists. vm_compute. reflexivity. Qed.

(** C97 fails: it never ends while writes fail, and so holds up the whole set. *)
Theorem C97_endless_refuted : exists now cached r, forall k, markTerminating now cached (repeat r k) = ([], MStill).
Proof.
  exists 100, (mkMS [] (mkOp "joined" "" 20 "Successful" "Create") (mkCur "Running" false 20) ""), (mkMRound (Some (p_mach 1 None "" "Running")) 100 false false).
  induction k as [|k IH]; [reflexivity|]. unfold markTerminating in *. cbn [repeat updateMachineStatus mr_get]. cbv zeta.
  replace (isMachineStatusEqual _ _ _) with false by (vm_compute; reflexivity). cbn [mr_stored mr_answer andb]. rewrite IH. reflexivity.
Qed.
Print Assumptions C97_endless_refuted.

(** C97 fails: a machine that was re-created under the name and whose deletion nobody
    asked for is marked, and so is one whose deletion is already past that point. *)
Theorem C97_wrong_machine_refuted : exists now cached, 
  (exists m x, mo_dt m = None /\ mo_uid m = 2%nat /\ markTerminating now cached [mkMRound (Some m) now true true] = ([x], MWritten) /\ mo_uid x = 2%nat /\ phase x = "Terminating") /\
  (exists m x, mo_dt m <> None /\ desc m = "VM deletion was successful. Initiate node object deletion" /\
     markTerminating now cached [mkMRound (Some m) now true true] = ([x], MWritten) /\ desc x = "Deleting machine from cloud provider").
Proof.
  exists 200, (mkMS [] (mkOp "joined" "" 20 "Successful" "Create") (mkCur "Running" false 20) ""). split.
  - exists (p_mach 2 None "" "Running"). eexists. do 2 (split; [reflexivity|]). split; [vm_compute; reflexivity|]. split; reflexivity.
  - exists (p_mach 1 (Some 150) "VM deletion was successful. Initiate node object deletion" "Terminating"). eexists. split; [discriminate|]. split; [reflexivity|]. split; [vm_compute; reflexivity | reflexivity].
Qed.
Print Assumptions C97_wrong_machine_refuted.

(** C96: a first try that does not reach the set, or is refused, or whose answer is lost, is
    followed by a second one with the same status; a try that went through ends the pass. *)
Theorem C96_tries_again : forall w v n g f, w_pc w = Trying 0 v n g ->
  let w' := pstep w (OPut f) in
  (w_pc w' = Idle -> f = Applied /\ exists o, stored w' o /\ p_status o = n /\ p_obs o = g) /\
  (w_pc w' <> Idle -> w_pc w' = Again n g /\ (f = Applied -> w_set w' = w_set w)).
Proof.
  intros w v n g f P. cbn [pstep]. rewrite P. unfold updateStatus. destruct (w_set w) as [(v', o)|] eqn:S.
  - destruct f; cbn [goto w_pc]; try destruct (Nat.eqb v v') eqn:E; cbn; split; intros H; try discriminate; try congruence; auto;
      try (split; [reflexivity|]; first [discriminate | intros _; assumption | eexists; split; [eexists; reflexivity|split; reflexivity]]).
  - destruct f; cbn; split; intros H; try discriminate; try congruence; auto; split; auto; discriminate.
Qed.
Print Assumptions C96_tries_again.

Example C96_tries_again_case : let w := prun pinit (firstn 4 p_hist) in
  (exists v n g, w_pc w = Trying 0 v n g) /\ (exists n g, w_pc (pstep w (OPut Applied)) = Again n g) /\
  w_pc (pstep (prun pinit [ECreate 2 [] 0; OBegin; OCompute 5 [p_m "m1" "Running"] None]) (OPut Applied)) = Idle.
Proof. split; [do 3 eexists; vm_compute; reflexivity|]. split; [do 2 eexists; vm_compute; reflexivity|vm_compute; reflexivity]. Qed.
