(* Lemmas for C95. *)
Require Import List String Bool ZArith Lia NArith.
From Verif Require Import CodesModel MachModel LevModel HealthModel LifeModel LifeSpec LifeProofs CreaSpec.
Import ListNotations.
Open Scope string_scope.
Open Scope list_scope.
Open Scope Z_scope.

Lemma m_done : forall h c, ~ makes Done h c.
Proof. intros h c H. inversion H. Qed.
Lemma m_panic : forall h c, ~ makes Panic h c.
Proof. intros h c H. inversion H. Qed.
Lemma m_do : forall c k h x, makes (Do c k) h x -> (h = [] /\ x = c) \/ exists r h', h = (c, r) :: h' /\ makes (k r) h' x.
Proof. intros c k h x H. inversion H; subst; [auto | right; eauto]. Qed.

Lemma put_get : forall k v l k', get k' (put k v l) = if String.eqb k' k then Some v else get k' l.
Proof.
  intros k v l k'. induction l as [|[a b] l IH]; cbn [put get].
  - destruct (String.eqb k' k); reflexivity.
  - destruct (String.eqb_spec k a) as [<- | N]; cbn [get].
    + destruct (String.eqb k' k); reflexivity.
    + rewrite IH. destruct (String.eqb_spec k' a) as [-> |]; [|reflexivity]. destruct (String.eqb_spec a k) as [E|]; [congruence | reflexivity].
Qed.
Lemma has_get : forall k l, has k l = true <-> get k l <> None.
Proof. intros k l. unfold has. destruct (get k l); split; congruence. Qed.

(* The status update: a look at the clock, then possibly the write. *)
Lemma m_status : forall m d code st ty cur lks h x, makes (statusUpdate m d code st ty cur lks) h x ->
  (h = [] /\ x = CNow) \/
  (exists now, h = [(CNow, RTime now)] /\ x = WStatus (withStatus (mkMS (ms_conds (mo_status m)) (mkOp d code now st ty) (cur now) lks) m)).
Proof.
  intros m d code st ty cur lks h x H. unfold statusUpdate in H. apply m_do in H as [(-> & ->)|(r & h' & -> & H)]; [auto|].
  destruct r; try (destruct (m_done _ _ H)). unfold machineStatusUpdate in H. cbv zeta in H.
  destruct (isMachineStatusSimilar _ _ _); [destruct (m_done _ _ H)|].
  apply m_do in H as [(-> & ->)|(r & h2 & -> & H)]; [|destruct (m_done _ _ H)].
  right. eexists. split; reflexivity.
Qed.

Lemma phase_late : forall cf m now, (createFailurePhase cf m now = "Failed" /\ late cf m now) \/ (createFailurePhase cf m now = "CrashLoopBackOff" /\ ~ late cf m now).
Proof.
  intros cf m now. unfold createFailurePhase, late. destruct (0 <? now - cf_creation cf - mo_created m) eqn:E; [left | right]; (split; [reflexivity|]); lia.
Qed.

Lemma append_nil_r : forall s, (s ++ "")%string = s.
Proof. induction s as [|a s IH]; [reflexivity|]. cbn. now rewrite IH. Qed.

Lemma m_error : forall cf m lks text h x, makes (machineCreateErrorHandler cf m lks text) h x ->
  (h = [] /\ x = CNow) \/
  (exists now s, h = [(CNow, RTime now)] /\ x = WStatus (withStatus s m) /\ ms_conds s = ms_conds (mo_status m) /\ reportsFailure cf m now text s /\
     ((lks <> "" /\ ms_lks s = lks) \/ (lks = "" /\ worthRetrying text /\ ms_lks s = ms_lks (mo_status m)) \/ (lks = "" /\ ~ worthRetrying text /\ ms_lks s = ""))).
Proof.
  intros cf m lks text h x H. unfold machineCreateErrorHandler in H. apply m_status in H as [H|(now & -> & ->)]; [auto|].
  right. exists now. eexists. split; [reflexivity|]. split; [reflexivity|]. split; [reflexivity|]. split.
  - unfold reportsFailure. cbn [ms_op ms_cur lo_type lo_state lo_time lo_code lo_desc cs_timeoutActive cs_time cs_phase].
    split; [reflexivity|]. split; [reflexivity|]. split; [reflexivity|]. split; [reflexivity|]. split.
    + exists "Cloud provider message - ", "". now rewrite append_nil_r.
    + split; [reflexivity|]. split; [reflexivity|]. apply phase_late.
  - cbn [ms_lks]. destruct (String.eqb_spec lks "") as [E|E]; [right | left; auto].
    unfold keptState. destruct (FromError text) as [st ok] eqn:F.
    destruct ok; cbn [andb].
    + destruct ((s_code st =? cUnknown)%N || (s_code st =? cDeadlineExceeded)%N || (s_code st =? cAborted)%N || (s_code st =? cUnavailable)%N) eqn:Q.
      * left. split; [exact E|]. split; [|reflexivity]. destruct st as [c msg]. exists c, msg. split; [exact F|]. cbn in Q |- *.
        rewrite !orb_true_iff, !N.eqb_eq in Q. intuition.
      * right. split; [exact E|]. split; [|reflexivity]. intros (c & msg & F' & I). rewrite F in F'. injection F' as ->. cbn in Q, I.
        rewrite !orb_false_iff, !N.eqb_neq in Q. intuition.
    + right. split; [exact E|]. split; [|reflexivity]. intros (c & msg & F' & I). congruence.
Qed.

Lemma m_init : forall cf m h x, makes (initializeMachine cf m) h x ->
  (h = [] /\ x = CInit m) \/
  (exists text resp h', h = (CInit m, PFail text resp) :: h' /\ snd (FromError text) = true /\ s_code (fst (FromError text)) <> cUnimplemented /\
     ((h' = [] /\ x = CNow) \/
      exists now s, h' = [(CNow, RTime now)] /\ x = WStatus (withStatus s m) /\ ms_conds s = ms_conds (mo_status m) /\ reportsFailure cf m now text s /\
        ms_lks s = ms_lks (mo_status m))).
Proof.
  intros cf m h x H. unfold initializeMachine in H. apply m_do in H as [(-> & ->)|(r & h' & -> & H)]; [auto|].
  destruct r; try (destruct (m_done _ _ H)). destruct (FromError text) as [st ok] eqn:F.
  destruct ok; cbn [negb] in H; [|destruct (m_done _ _ H)].
  destruct (N.eqb_spec (s_code st) cUnimplemented) as [E|E]; [destruct (m_done _ _ H)|].
  right. exists text, resp, h'. split; [reflexivity|]. rewrite F. split; [reflexivity|]. split; [exact E|].
  apply m_status in H as [H|(now & -> & ->)]; [auto|]. right. exists now. eexists. split; [reflexivity|]. split; [reflexivity|]. split; [reflexivity|]. split; [|reflexivity].
  unfold reportsFailure. cbn [ms_op ms_cur lo_type lo_state lo_time lo_code lo_desc cs_timeoutActive cs_time cs_phase]. rewrite F.
  split; [reflexivity|]. split; [reflexivity|]. split; [reflexivity|]. split; [reflexivity|]. split.
  - exists "Provider error: ", (". " ++ InstanceInitialization)%string. reflexivity.
  - split; [reflexivity|]. split; [reflexivity|]. apply phase_late.
Qed.

Lemma m_pending : forall m h x, makes (setPending m) h x -> inCreation m /\
  ((h = [] /\ x = CNow) \/
   (exists now, h = [(CNow, RTime now)] /\ x = WStatus (withStatus (mkMS (ms_conds (mo_status m)) (mkOp "Creating machine on cloud provider" "" now "Processing" "Create")
      (mkCur "Pending" true now) (ms_lks (mo_status m))) m))).
Proof.
  intros m h x H. unfold setPending in H. destruct (String.eqb (phase m) "" || String.eqb (phase m) "CrashLoopBackOff") eqn:P; [|destruct (m_done _ _ H)].
  split; [apply orb_prop in P; unfold inCreation; rewrite !String.eqb_eq in P; exact P|].
  apply m_do in H as [(-> & ->)|(r & h' & -> & H)]; [auto|]. destruct r; try (destruct (m_done _ _ H)).
  apply m_do in H as [(-> & ->)|(r & h2 & -> & H)]; [|destruct (m_done _ _ H)]. right. eexists. split; reflexivity.
Qed.

(* What may follow once node and provider ID are known: [u] if the VM is to be initialized. *)
Definition afterVM (cf : Cfg) (m : MObj) (u : bool) (node pid : string) (h : list (Call * Reply)) (x : Call) : Prop :=
  (~ recorded m /\ h = [] /\ x = WMeta (labelled m node pid)) \/
  (u = true /\ exists y h0 h', h = h0 ++ h' /\
     ((~ recorded m /\ exists r, h0 = [(WMeta (labelled m node pid), r)] /\ (r = RObj y \/ (y = m /\ forall z, r <> RObj z))) \/ (recorded m /\ h0 = [] /\ y = m)) /\
     makes (initializeMachine cf y) h' x) \/
  (u = false /\ recorded m /\ makes (setPending m) h x).

Lemma recorded_b : forall m, negb (has "node" (mo_labels m)) || negb (has MachinePriority (mo_annots m)) || String.eqb (mo_pid m) "" = false <-> recorded m.
Proof.
  intros m. unfold recorded. rewrite !orb_false_iff, !negb_false_iff, !has_get, String.eqb_neq. tauto.
Qed.

Lemma m_finish : forall cf m u node pid h x, makes (finishCreation cf m u node pid) h x -> afterVM cf m u node pid h x.
Proof.
  intros cf m u node pid h x H. unfold finishCreation in H. unfold afterVM. pose proof (recorded_b m) as R.
  destruct (negb (has "node" (mo_labels m)) || negb (has MachinePriority (mo_annots m)) || String.eqb (mo_pid m) "").
  - assert (NR : ~ recorded m) by (intros K; apply R in K; discriminate).
    apply m_do in H as [(-> & ->)|(r & h' & -> & H)]; [auto|]. right. left.
    destruct u; [|destruct r; destruct (m_done _ _ H)]. split; [reflexivity|].
    destruct (match r with RObj z => true | _ => false end) eqn:Q.
    + destruct r; try discriminate. exists m0, [(WMeta (labelled m node pid), RObj m0)], h'. split; [reflexivity|]. split; [|exact H]. left. split; [exact NR|]. eauto.
    + exists m, [(WMeta (labelled m node pid), r)], h'. split; [reflexivity|]. split; [|destruct r; try discriminate; exact H].
      left. split; [exact NR|]. exists r. split; [reflexivity|]. right. split; [reflexivity|]. intros z ->. discriminate.
  - assert (Y : recorded m) by (apply R; reflexivity). destruct u.
    + right. left. split; [reflexivity|]. exists m, [], h. split; [reflexivity|]. split; [right; auto | exact H].
    + right. right. auto.
Qed.

(* The whole flow. *)
Definition flow (cf : Cfg) (m : MObj) (h : list (Call * Reply)) (x : Call) : Prop :=
  (h = [] /\ x = CSecret m) \/
  (h = [(CSecret m, RUnit)] /\ x = CGetStatus m) \/
  (exists r h1, h = (CSecret m, RUnit) :: (CGetStatus m, r) :: h1 /\
    ((exists node pid l, r = POk node pid l /\ afterVM cf m false node pid h1 x) \/
     ((failsWith r cNotFound \/ failsWith r cUnimplemented) /\ get "node" (mo_labels m) <> None /\ afterVM cf m false (nodeName m) "" h1 x) \/
     ((failsWith r cNotFound \/ failsWith r cUnimplemented) /\ get "node" (mo_labels m) = None /\ makes (createVM cf m) h1 x) \/
     (failsWith r cUninitialized /\ exists text node pid l, r = PFail text (Some (node, pid, l)) /\ afterVM cf m true node pid h1 x) \/
     (exists text resp, r = PFail text resp /\ (forall c, In c [cNotFound; cUnimplemented; cUninitialized] -> ~ failsWith r c) /\
        snd (FromError text) = true /\ makes (machineCreateErrorHandler cf m "" text) h1 x))).

Lemma fails_code : forall text resp st c, FromError text = (st, true) -> (failsWith (PFail text resp) c <-> s_code st = c).
Proof.
  intros text resp st c F. split.
  - intros (t & rs & msg & E & G). injection E as <- <-. rewrite F in G. injection G as ->. reflexivity.
  - intros <-. exists text, resp, (s_msg st). split; [reflexivity|]. rewrite F. destruct st; reflexivity.
Qed.

Lemma m_flow : forall cf m h x, makes (triggerCreationFlow cf m) h x -> flow cf m h x.
Proof.
  intros cf m h x H. unfold triggerCreationFlow in H. unfold flow.
  apply m_do in H as [(-> & ->)|(r & h1 & -> & H)]; [auto|]. destruct r; try (destruct (m_done _ _ H)).
  apply m_do in H as [(-> & ->)|(r & h2 & -> & H)]; [auto|]. right. right. exists r, h2. split; [reflexivity|].
  destruct r; try (destruct (m_done _ _ H)).
  - left. exists node, pid, lks. split; [reflexivity|]. apply m_finish. exact H.
  - right. destruct (FromError text) as [st ok] eqn:F. destruct ok; cbn [negb] in H; [|destruct (m_done _ _ H)].
    pose proof (fun c => fails_code text resp st c F) as FC.
    destruct ((s_code st =? cNotFound)%N || (s_code st =? cUnimplemented)%N) eqn:Q.
    + assert (Y : failsWith (PFail text resp) cNotFound \/ failsWith (PFail text resp) cUnimplemented).
      { rewrite !FC. apply orb_prop in Q. rewrite !N.eqb_eq in Q. exact Q. }
      unfold has in H. destruct (get "node" (mo_labels m)) eqn:G.
      * left. split; [exact Y|]. split; [discriminate|]. apply m_finish. exact H.
      * right. left. auto.
    + apply orb_false_iff in Q as (Q1 & Q2). apply N.eqb_neq in Q1, Q2. destruct (N.eqb_spec (s_code st) cUninitialized) as [E|E].
      * right. right. left. split; [apply FC; exact E|]. destruct resp as [[[node pid] l]|]; [|destruct (m_panic _ _ H)].
        exists text, node, pid, l. split; [reflexivity|]. apply m_finish. exact H.
      * right. right. right. exists text, resp. split; [reflexivity|]. split; [|split; [rewrite F; reflexivity | exact H]].
        intros c [<- | [<- | [<- | []]]] K; apply FC in K; congruence.
Qed.

(* Creating the VM. *)
Lemma m_create : forall cf m h x, makes (createVM cf m) h x ->
  (h = [] /\ x = CCreate m) \/
  (exists text resp h', h = (CCreate m, PFail text resp) :: h' /\ makes (machineCreateErrorHandler cf m (match resp with Some (_, _, lks) => lks | None => "" end) text) h' x) \/
  (exists node pid l h', h = (CCreate m, POk node pid l) :: h' /\
     ((h' = [] /\ x = CStaleNode node) \/
      (exists found h2, h' = (CStaleNode node, RBool found) :: h2 /\
        ((found = true /\ node <> mo_name m /\
            ((h2 = [] /\ x = CDelete (withPid pid m)) \/
             exists r h3, h2 = (CDelete (withPid pid m), r) :: h3 /\
               makes (statusUpdate m "VM using old node obj" "" "Failed" "Create" (fun now => mkCur "Failed" false now) (ms_lks (mo_status m))) h3 x)) \/
         ((found = false \/ node = mo_name m) /\ afterVM cf m true node pid h2 x))))).
Proof.
  intros cf m h x H. unfold createVM in H. apply m_do in H as [(-> & ->)|(r & h1 & -> & H)]; [auto|].
  destruct r; try (destruct (m_done _ _ H)); [|right; left; eauto]. right. right. exists node, pid, lks, h1. split; [reflexivity|].
  apply m_do in H as [(-> & ->)|(r & h2 & -> & H)]; [auto|]. destruct r; try (destruct (m_done _ _ H)). right. exists b, h2. split; [reflexivity|].
  destruct (String.eqb_spec node (mo_name m)) as [E|E]; destruct b; cbn [negb andb] in H.
  - right. split; [auto | apply m_finish; exact H].
  - right. split; [auto | apply m_finish; exact H].
  - left. split; [reflexivity|]. split; [exact E|]. apply m_do in H as [(-> & ->)|(r & h3 & -> & H)]; [auto|]. right. eauto.
  - right. split; [auto | apply m_finish; exact H].
Qed.

(* Consequences. *)

Lemma labelled_records : forall m node pid, recordsVM m node pid (labelled m node pid).
Proof.
  intros m node pid. unfold recordsVM, labelled. cbn [mo_name mo_uid mo_rv mo_created mo_dt mo_fins mo_status mo_pid mo_labels mo_annots].
  do 8 (split; [reflexivity|]). split; [intros k; apply put_get|]. unfold getS. split.
  - intros k N. destruct (match get MachinePriority (mo_annots m) with Some v => v | None => "" end) eqn:G; cbn [String.eqb]; [|reflexivity].
    rewrite put_get. apply String.eqb_neq in N. rewrite N. reflexivity.
  - destruct (get MachinePriority (mo_annots m)) as [v|] eqn:G.
    + destruct v; cbn [String.eqb]; [rewrite put_get, String.eqb_refl; reflexivity | exact G].
    + cbn [String.eqb]. rewrite put_get, String.eqb_refl. reflexivity.
Qed.

Definition writes (cf : Cfg) (m : MObj) (h : list (Call * Reply)) (x : MObj) : Prop :=
  exists h0 now y s, h = h0 ++ [(CNow, RTime now)] /\ x = withStatus s y /\ statusCase cf m h0 now y s.

Lemma case_more : forall cf m h0 now y s pre, statusCase cf m h0 now y s -> statusCase cf m (pre ++ h0) now y s.
Proof.
  intros cf m h0 now y s pre [H|[H|H]].
  - left. destruct H as (A & B & C & D & r & I & J). do 4 (split; [assumption|]). exists r. split; [apply in_or_app; auto | exact J].
  - right. left. destruct H as (text & resp & A & B & H). exists text, resp. split; [exact A|]. split; [exact B|].
    destruct H as [(E & I & H)|[(E & I & H)|(I & H & K & J)]].
    + left. split; [exact E|]. split; [apply in_or_app; auto | exact H].
    + right. left. split; [exact E|]. split; [apply in_or_app; auto | exact H].
    + right. right. split; [apply in_or_app; auto|]. split; [exact H|]. split; [exact K|]. destruct J as [J|(w & J)]; [auto|]. right. exists w. apply in_or_app. auto.
  - right. right. destruct H as (E & node & pid & l & r & N & A & B & C & D). split; [exact E|]. exists node, pid, l, r.
    split; [exact N|]. split; [apply in_or_app; auto|]. split; [apply in_or_app; auto|]. split; [apply in_or_app; auto | exact D].
Qed.

Lemma writes_more : forall cf m h x pre, writes cf m h x -> writes cf m (pre ++ h) x.
Proof.
  intros cf m h x pre (h0 & now & y & s & -> & E & C). exists (pre ++ h0), now, y, s. split; [apply app_assoc|]. split; [exact E | apply case_more; exact C].
Qed.

Lemma w_init : forall cf m y h x, (y = m \/ False) -> makes (initializeMachine cf y) h (WStatus x) -> writes cf m h x.
Proof.
  intros cf m y h x [E | []] H. subst y. apply m_init in H as [(_ & H)|(text & resp & h' & -> & F & N & H)]; [discriminate|].
  destruct H as [(_ & H)|(now & s & -> & E & C & R & L)]; [discriminate|]. injection E as ->.
  exists [(CInit m, PFail text resp)], now, m, s. split; [reflexivity|]. split; [reflexivity|]. right. left. exists text, resp.
  split; [exact R|]. split; [exact C|]. right. right. split; [left; reflexivity|]. split; [|split; [exact L | auto]].
  intros (t & rs & msg & K & G). injection K as <- <-. rewrite G in N. apply N. reflexivity.
Qed.

Lemma w_after : forall cf m u node pid h x g r, In (CGetStatus m, r) g ->
  (u = false -> (exists node pid l, r = POk node pid l) \/ failsWith r cNotFound \/ failsWith r cUnimplemented) ->
  afterVM cf m u node pid h (WStatus x) -> writes cf m (g ++ h) x.
Proof.
  intros cf m u node pid h x g r I U [(_ & _ & H)|[(-> & y & h0 & h' & -> & D & H)|(-> & R & H)]]; [discriminate| |].
  - rewrite app_assoc. apply m_init in H as [(_ & H)|(text & resp & h2 & -> & F & N & H)]; [discriminate|].
    destruct H as [(_ & H)|(now & s & -> & E & C & Q & L)]; [discriminate|]. injection E as ->.
    exists ((g ++ h0) ++ [(CInit y, PFail text resp)]), now, y, s. split; [rewrite <- !app_assoc; reflexivity|]. split; [reflexivity|]. right. left. exists text, resp.
    split; [exact Q|]. split; [exact C|]. right. right. split; [apply in_or_app; right; left; reflexivity|]. split.
    + intros (t & rs & msg & K & G). injection K as <- <-. rewrite G in N. apply N. reflexivity.
    + split; [exact L|]. destruct D as [(_ & r0 & -> & [-> | (-> & _)])|(_ & _ & ->)]; [|auto|auto].
      right. eexists. apply in_or_app. left. apply in_or_app. right. left. reflexivity.
  - apply m_pending in H as (P & [(_ & H)|(now & -> & E)]); [discriminate|]. injection E as ->.
    exists g, now, m, (pendingStatus m now). split; [reflexivity|]. split; [reflexivity|]. left. do 3 (split; [auto|]). split; [reflexivity|]. exists r. auto.
Qed.

Lemma w_create : forall cf m h x g r, In (CGetStatus m, r) g -> makes (createVM cf m) h (WStatus x) -> writes cf m (g ++ h) x.
Proof.
  intros cf m h x g r I H. apply m_create in H as [(_ & H)|[(text & resp & h' & -> & H)|(node & pid & l & h' & -> & H)]]; [discriminate| |].
  - apply m_error in H as [(_ & H)|(now & s & -> & E & C & R & L)]; [discriminate|]. injection E as ->.
    exists (g ++ [(CCreate m, PFail text resp)]), now, m, s. split; [rewrite <- app_assoc; reflexivity|]. split; [reflexivity|]. right. left. exists text, resp.
    split; [exact R|]. split; [exact C|]. right. left. split; [reflexivity|]. split; [apply in_or_app; right; left; reflexivity | exact L].
  - destruct H as [(_ & H)|(found & h2 & -> & [(-> & N & H)|(D & H)])]; [discriminate| |].
    + destruct H as [(_ & H)|(r0 & h3 & -> & H)]; [discriminate|]. apply m_status in H as [(_ & H)|(now & -> & E)]; [discriminate|]. injection E as ->.
      exists (g ++ [(CCreate m, POk node pid l); (CStaleNode node, RBool true); (CDelete (withPid pid m), r0)]), now, m. eexists.
      split; [rewrite <- app_assoc; reflexivity|]. split; [reflexivity|]. right. right. split; [reflexivity|]. exists node, pid, l, r0.
      split; [exact N|]. split; [apply in_or_app; right; left; reflexivity|]. split; [apply in_or_app; right; right; left; reflexivity|].
      split; [apply in_or_app; right; right; right; left; reflexivity | reflexivity].
    + assert (K := w_after cf m true node pid h2 x (g ++ [(CCreate m, POk node pid l); (CStaleNode node, RBool found)]) r).
      rewrite <- app_assoc in K. apply K; [apply in_or_app; auto | discriminate | exact H].
Qed.

Lemma m_needed : forall cf m h x, makes (creationIfNeeded cf m) h x -> (mo_pid m = "" \/ inCreation m) /\ flow cf m h x.
Proof.
  intros cf m h x H. unfold creationIfNeeded in H.
  destruct (String.eqb (mo_pid m) "" || String.eqb (phase m) "" || String.eqb (phase m) "CrashLoopBackOff") eqn:Q; [|destruct (m_done _ _ H)].
  rewrite !orb_true_iff, !String.eqb_eq in Q. split; [unfold inCreation; tauto | apply m_flow; exact H].
Qed.

Lemma creation_status : forall cf m h x, makes (creationIfNeeded cf m) h (WStatus x) -> writes cf m h x.
Proof.
  intros cf m h x H. apply m_needed in H as (_ & [(_ & H)|[(_ & H)|(r & h1 & -> & H)]]); [discriminate|discriminate|].
  change (writes cf m ([(CSecret m, RUnit); (CGetStatus m, r)] ++ h1) x).
  assert (I : In (CGetStatus m, r) [(CSecret m, RUnit); (CGetStatus m, r)]) by (right; left; reflexivity).
  destruct H as [(node & pid & l & E & H)|[(F & L & H)|[(F & L & H)|[(F & text & node & pid & l & E & H)|(text & resp & E & N & F & H)]]]].
  - eapply w_after; [exact I | | exact H]. intros _. left. eauto.
  - eapply w_after; [exact I | | exact H]. intros _. right. exact F.
  - eapply w_create; [exact I | exact H].
  - eapply w_after; [exact I | | exact H]. discriminate.
  - apply m_error in H as [(_ & H)|(now & s & -> & E' & C & R & L)]; [discriminate|]. injection E' as ->. subst r.
    exists [(CSecret m, RUnit); (CGetStatus m, PFail text resp)], now, m, s. split; [reflexivity|]. split; [reflexivity|]. right. left. exists text, resp.
    split; [exact R|]. split; [exact C|]. left. split; [reflexivity|]. split; [exact I|]. split; [exact N|]. destruct L as [(L & _)|[(_ & L)|(_ & L)]]; [congruence | tauto | tauto].
Qed.

(* What is recorded about the VM. *)
Lemma creation_meta : forall cf m h x, makes (creationIfNeeded cf m) h (WMeta x) -> ~ recorded m /\
  exists node pid, recordsVM m node pid x /\
    (providerGave m node pid h \/
     (node = nodeName m /\ pid = "" /\ get "node" (mo_labels m) <> None /\ exists r, In (CGetStatus m, r) h /\ (failsWith r cNotFound \/ failsWith r cUnimplemented))).
Proof.
  intros cf m h x H. apply m_needed in H as (_ & [(_ & H)|[(_ & H)|(r & h1 & -> & H)]]); [discriminate|discriminate|].
  assert (AV : forall u node pid h, afterVM cf m u node pid h (WMeta x) -> ~ recorded m /\ recordsVM m node pid x).
  { intros u node pid h [(NR & _ & E)|[(_ & y & h0 & h' & _ & _ & E)|(_ & _ & E)]].
    - injection E as ->. split; [exact NR | apply labelled_records].
    - apply m_init in E as [(_ & E)|(text & resp & h2 & _ & _ & _ & [(_ & E)|(now & s & _ & E & _)])]; discriminate.
    - apply m_pending in E as (_ & [(_ & E)|(now & _ & E)]); discriminate. }
  destruct H as [(node & pid & l & E & H)|[(F & L & H)|[(F & L & H)|[(F & text & node & pid & l & E & H)|(text & resp & E & N & F & H)]]]].
  - apply AV in H as (NR & R). split; [exact NR|]. exists node, pid. split; [exact R|]. left. exists r. split; [left; right; left; reflexivity|]. left. eauto.
  - apply AV in H as (NR & R). split; [exact NR|]. exists (nodeName m), "". split; [exact R|]. right. do 3 (split; [auto|]). exists r. split; [right; left; reflexivity | exact F].
  - apply m_create in H as [(_ & H)|[(text & resp & h' & -> & H)|(node & pid & l & h' & -> & H)]]; [discriminate| |].
    + apply m_error in H as [(_ & H)|(now & s & -> & E & C & R & L')]; discriminate.
    + destruct H as [(_ & H)|(found & h2 & -> & [(-> & N & H)|(D & H)])]; [discriminate| |].
      * destruct H as [(_ & H)|(r0 & h3 & -> & H)]; [discriminate|]. apply m_status in H as [(_ & H)|(now & -> & E)]; discriminate.
      * apply AV in H as (NR & R). split; [exact NR|]. exists node, pid. split; [exact R|]. left. exists (POk node pid l). split; [right; right; right; left; reflexivity | left; eauto].
  - apply AV in H as (NR & R). split; [exact NR|]. exists node, pid. split; [exact R|]. left. exists r. split; [left; right; left; reflexivity|]. right. split; [exact F|]. eauto.
  - apply m_error in H as [(_ & H)|(now & s & -> & E' & C & R & L)]; discriminate.
Qed.

(* When a VM is created, initialized, deleted. *)
Lemma creation_create : forall cf m h y, makes (creationIfNeeded cf m) h (CCreate y) <->
  y = m /\ (mo_pid m = "" \/ inCreation m) /\ get "node" (mo_labels m) = None /\
  exists r, h = [(CSecret m, RUnit); (CGetStatus m, r)] /\ (failsWith r cNotFound \/ failsWith r cUnimplemented).
Proof.
  intros cf m h y. split.
  - intros H. apply m_needed in H as (Q & [(_ & H)|[(_ & H)|(r & h1 & -> & H)]]); [discriminate|discriminate|].
    assert (AV : forall u node pid h, ~ afterVM cf m u node pid h (CCreate y)).
    { intros u node pid h [(NR & _ & E)|[(_ & z & h0 & h' & _ & _ & E)|(_ & _ & E)]]; [discriminate| |].
      - apply m_init in E as [(_ & E)|(text & resp & h2 & _ & _ & _ & [(_ & E)|(now & s & _ & E & _)])]; discriminate.
      - apply m_pending in E as (_ & [(_ & E)|(now & _ & E)]); discriminate. }
    destruct H as [(node & pid & l & E & H)|[(F & L & H)|[(F & L & H)|[(F & text & node & pid & l & E & H)|(text & resp & E & N & F & H)]]]].
    + destruct (AV _ _ _ _ H).
    + destruct (AV _ _ _ _ H).
    + apply m_create in H as [(-> & H)|[(text & resp & h' & -> & H)|(node & pid & l & h' & -> & H)]].
      * injection H as ->. split; [reflexivity|]. split; [exact Q|]. split; [exact L|]. eauto.
      * apply m_error in H as [(_ & H)|(now & s & -> & E & _)]; discriminate.
      * destruct H as [(_ & H)|(found & h2 & -> & [(-> & N & H)|(D & H)])]; [discriminate| |].
        -- destruct H as [(_ & H)|(r0 & h3 & -> & H)]; [discriminate|]. apply m_status in H as [(_ & H)|(now & -> & E)]; discriminate.
        -- destruct (AV _ _ _ _ H).
    + destruct (AV _ _ _ _ H).
    + apply m_error in H as [(_ & H)|(now & s & -> & E' & _)]; discriminate.
  - intros (-> & Q & L & r & -> & F). unfold creationIfNeeded.
    replace (String.eqb (mo_pid m) "" || String.eqb (phase m) "" || String.eqb (phase m) "CrashLoopBackOff") with true.
    2:{ symmetry. rewrite !orb_true_iff, !String.eqb_eq. unfold inCreation in Q. tauto. }
    unfold triggerCreationFlow. apply makes_later, makes_later.
    destruct F as [(t & rs & msg & -> & F)|(t & rs & msg & -> & F)]; rewrite F; unfold has; rewrite L; cbn [negb s_code N.eqb Pos.eqb cNotFound cUnimplemented orb]; apply makes_now.
Qed.

Lemma needed_eq : forall cf m, mo_pid m = "" \/ inCreation m -> creationIfNeeded cf m = triggerCreationFlow cf m.
Proof.
  intros cf m Q. unfold creationIfNeeded.
  replace (String.eqb (mo_pid m) "" || String.eqb (phase m) "" || String.eqb (phase m) "CrashLoopBackOff") with true; [reflexivity|].
  symmetry. rewrite !orb_true_iff, !String.eqb_eq. unfold inCreation in Q. tauto.
Qed.

Lemma go_create : forall cf m r h x, mo_pid m = "" \/ inCreation m -> noVM m r -> makes (createVM cf m) h x ->
  makes (creationIfNeeded cf m) ((CSecret m, RUnit) :: (CGetStatus m, r) :: h) x.
Proof.
  intros cf m r h x Q (L & F) H. rewrite (needed_eq cf m Q). unfold triggerCreationFlow. apply makes_later, makes_later.
  destruct F as [(t & rs & msg & -> & F)|(t & rs & msg & -> & F)]; rewrite F; unfold has; rewrite L; cbn [negb s_code N.eqb Pos.eqb cNotFound cUnimplemented orb]; exact H.
Qed.

Lemma go_finish : forall cf m node pid l h x, mo_pid m = "" \/ inCreation m -> makes (finishCreation cf m false node pid) h x ->
  makes (creationIfNeeded cf m) ((CSecret m, RUnit) :: (CGetStatus m, POk node pid l) :: h) x.
Proof. intros cf m node pid l h x Q H. rewrite (needed_eq cf m Q). unfold triggerCreationFlow. apply makes_later, makes_later. exact H. Qed.

Lemma go_uninit : forall cf m text node pid l h x, mo_pid m = "" \/ inCreation m -> failsWith (PFail text (Some (node, pid, l))) cUninitialized ->
  makes (finishCreation cf m true node pid) h x ->
  makes (creationIfNeeded cf m) ((CSecret m, RUnit) :: (CGetStatus m, PFail text (Some (node, pid, l))) :: h) x.
Proof.
  intros cf m text node pid l h x Q (t & rs & msg & E & F) H. injection E as <- <-. rewrite (needed_eq cf m Q). unfold triggerCreationFlow. apply makes_later, makes_later.
  rewrite F. exact H.
Qed.

Lemma not_recorded_b : forall m, ~ recorded m -> negb (has "node" (mo_labels m)) || negb (has MachinePriority (mo_annots m)) || String.eqb (mo_pid m) "" = true.
Proof.
  intros m N. pose proof (recorded_b m) as R. destruct (negb (has "node" (mo_labels m)) || negb (has MachinePriority (mo_annots m)) || String.eqb (mo_pid m) ""); [reflexivity|].
  exfalso. apply N, R. reflexivity.
Qed.

Lemma go_up : forall cf m node pid g h x, mo_pid m = "" \/ inCreation m -> vmUp m node pid g -> makes (finishCreation cf m true node pid) h x ->
  makes (creationIfNeeded cf m) (g ++ h) x.
Proof.
  intros cf m node pid g h x Q [(text & l & -> & F)|(r & l & found & -> & N & D)] H.
  - apply go_uninit; assumption.
  - cbn [app]. apply go_create; [assumption|assumption|]. unfold createVM. apply makes_later, makes_later.
    destruct (String.eqb_spec node (mo_name m)) as [E|E]; destruct found; cbn [negb andb]; try exact H. destruct D; [discriminate | contradiction].
Qed.

Lemma creation_init : forall cf m h y, makes (creationIfNeeded cf m) h (CInit y) <->
  (mo_pid m = "" \/ inCreation m) /\ exists node pid g, vmUp m node pid g /\
    ((recorded m /\ h = g /\ y = m) \/
     (~ recorded m /\ exists w r, recordsVM m node pid w /\ w = labelled m node pid /\ h = g ++ [(WMeta w, r)] /\ (r = RObj y \/ (y = m /\ forall z, r <> RObj z)))).
Proof.
  intros cf m h y. split.
  - intros H. apply m_needed in H as (Q & [(_ & H)|[(_ & H)|(r & h1 & -> & H)]]); [discriminate|discriminate|]. split; [exact Q|].
    assert (AV : forall node pid h g, vmUp m node pid g -> afterVM cf m true node pid h (CInit y) ->
      exists node pid g', vmUp m node pid g' /\
        ((recorded m /\ g ++ h = g' /\ y = m) \/
         (~ recorded m /\ exists w r, recordsVM m node pid w /\ w = labelled m node pid /\ g ++ h = g' ++ [(WMeta w, r)] /\ (r = RObj y \/ (y = m /\ forall z, r <> RObj z))))).
    { intros node pid h g U [(NR & _ & E)|[(_ & z & h0 & h' & -> & D & E)|(K & _)]]; [discriminate| |discriminate].
      exists node, pid, g. split; [exact U|].
      apply m_init in E as [(-> & E)|(text & resp & h2 & _ & _ & _ & [(_ & E)|(now & s & _ & E & _)])]; [|discriminate|discriminate].
      injection E as ->. rewrite app_nil_r. destruct D as [(NR & r0 & -> & D)|(R & -> & ->)].
      - right. split; [exact NR|]. eexists. exists r0. split; [apply labelled_records|]. split; [reflexivity|]. split; [reflexivity | exact D].
      - left. rewrite app_nil_r. auto. }
    assert (AF : forall node pid h, ~ afterVM cf m false node pid h (CInit y)).
    { intros node pid h [(NR & _ & E)|[(K & _)|(_ & _ & E)]]; [discriminate|discriminate|].
      apply m_pending in E as (_ & [(_ & E)|(now & _ & E)]); discriminate. }
    destruct H as [(node & pid & l & E & H)|[(F & L & H)|[(F & L & H)|[(F & text & node & pid & l & -> & H)|(text & resp & E & N & F & H)]]]].
    + destruct (AF _ _ _ H).
    + destruct (AF _ _ _ H).
    + apply m_create in H as [(_ & H)|[(text & resp & h' & -> & H)|(node & pid & l & h' & -> & H)]]; [discriminate| |].
      * apply m_error in H as [(_ & H)|(now & s & -> & E & _)]; discriminate.
      * destruct H as [(_ & H)|(found & h2 & -> & [(-> & N & H)|(D & H)])]; [discriminate| |].
        -- destruct H as [(_ & H)|(r0 & h3 & -> & H)]; [discriminate|]. apply m_status in H as [(_ & H)|(now & -> & E)]; discriminate.
        -- apply (AV node pid h2 [(CSecret m, RUnit); (CGetStatus m, r); (CCreate m, POk node pid l); (CStaleNode node, RBool found)]); [|exact H].
           right. exists r, l, found. split; [reflexivity|]. split; [split; assumption | exact D].
    + apply (AV node pid h1 [(CSecret m, RUnit); (CGetStatus m, PFail text (Some (node, pid, l)))]); [|exact H].
      left. exists text, l. split; [reflexivity | exact F].
    + apply m_error in H as [(_ & H)|(now & s & -> & E' & _)]; discriminate.
  - intros (Q & node & pid & g & U & [(R & -> & ->)|(NR & w & r & _ & -> & -> & D)]).
    + rewrite <- (app_nil_r g). apply (go_up cf m node pid); [assumption|assumption|]. unfold finishCreation.
      rewrite (proj2 (recorded_b m) R). apply makes_now.
    + apply (go_up cf m node pid); [assumption|assumption|]. unfold finishCreation. rewrite (not_recorded_b m NR). apply makes_later.
      destruct D as [-> | (-> & N)]; [apply makes_now|]. destruct r; try apply makes_now. destruct (N m0 eq_refl).
Qed.

(* A VM that came up under the name of a node that is already there is deleted again. *)
Lemma creation_delete : forall cf m h y, makes (creationIfNeeded cf m) h (CDelete y) <->
  (mo_pid m = "" \/ inCreation m) /\ exists r node pid l, noVM m r /\ node <> mo_name m /\ y = withPid pid m /\
    h = [(CSecret m, RUnit); (CGetStatus m, r); (CCreate m, POk node pid l); (CStaleNode node, RBool true)].
Proof.
  intros cf m h y. split.
  - intros H. apply m_needed in H as (Q & [(_ & H)|[(_ & H)|(r & h1 & -> & H)]]); [discriminate|discriminate|]. split; [exact Q|].
    assert (AV : forall u node pid h, ~ afterVM cf m u node pid h (CDelete y)).
    { intros u node pid h [(NR & _ & E)|[(_ & z & h0 & h' & _ & _ & E)|(_ & _ & E)]]; [discriminate| |].
      - apply m_init in E as [(_ & E)|(text & resp & h2 & _ & _ & _ & [(_ & E)|(now & s & _ & E & _)])]; discriminate.
      - apply m_pending in E as (_ & [(_ & E)|(now & _ & E)]); discriminate. }
    destruct H as [(node & pid & l & E & H)|[(F & L & H)|[(F & L & H)|[(F & text & node & pid & l & E & H)|(text & resp & E & N & F & H)]]]].
    + destruct (AV _ _ _ _ H).
    + destruct (AV _ _ _ _ H).
    + apply m_create in H as [(_ & H)|[(text & resp & h' & -> & H)|(node & pid & l & h' & -> & H)]]; [discriminate| |].
      * apply m_error in H as [(_ & H)|(now & s & -> & E & _)]; discriminate.
      * destruct H as [(_ & H)|(found & h2 & -> & [(-> & N & H)|(D & H)])]; [discriminate| |].
        -- destruct H as [(-> & H)|(r0 & h3 & -> & H)].
           ++ injection H as ->. exists r, node, pid, l. split; [split; assumption|]. auto.
           ++ apply m_status in H as [(_ & H)|(now & -> & E)]; discriminate.
        -- destruct (AV _ _ _ _ H).
    + destruct (AV _ _ _ _ H).
    + apply m_error in H as [(_ & H)|(now & s & -> & E' & _)]; discriminate.
  - intros (Q & r & node & pid & l & N & E & -> & ->). apply go_create; [assumption|assumption|]. unfold createVM. apply makes_later, makes_later.
    apply String.eqb_neq in E. rewrite E. cbn [negb andb]. apply makes_now.
Qed.

(* What follows for sure. *)
Lemma update_made : forall m d code cur lks now, cs_timeoutActive (cur now) = false -> In (cs_phase (cur now)) ["Failed"; "CrashLoopBackOff"] ->
  makes (statusUpdate m d code "Failed" "Create" cur lks) [(CNow, RTime now)]
    (WStatus (withStatus (mkMS (ms_conds (mo_status m)) (mkOp d code now "Failed" "Create") (cur now) lks) m)) \/ alreadyReports m now code.
Proof.
  intros m d code cur lks now T P. unfold statusUpdate, machineStatusUpdate. cbv zeta.
  destruct (isMachineStatusSimilar now (mkMS (ms_conds (mo_status m)) (mkOp d code now "Failed" "Create") (cur now) lks) (mo_status m)) eqn:S.
  - right. unfold isMachineStatusSimilar in S. cbn [ms_op ms_cur lo_time lo_desc lo_code lo_state lo_type] in S.
    destruct ((now <? now - 1800) || (lo_time (ms_op (mo_status m)) <? now - 1800)) eqn:A; [discriminate|].
    apply orb_false_iff in A as (_ & A). apply Z.ltb_ge in A. rewrite !andb_true_iff, !String.eqb_eq, Bool.eqb_true_iff in S.
    destruct S as (((((_ & C) & St) & Ty) & Ph) & Tm). unfold alreadyReports. rewrite <- St, <- Ty, <- C, <- Tm. unfold phase. rewrite <- Ph. auto 10.
  - left. apply makes_later. rewrite S. apply makes_now.
Qed.

Lemma fail_phase : forall cf m now, In (createFailurePhase cf m now) ["Failed"; "CrashLoopBackOff"].
Proof. intros. unfold createFailurePhase. destruct (0 <? _); cbn; auto. Qed.

Lemma makes_fun : forall p h c c', makes p h c -> makes p h c' -> c = c'.
Proof. intros p h c c' H. revert c'. induction H; intros c2 K; inversion K; subst; [reflexivity | auto]. Qed.

Lemma error_made : forall cf m lks text now,
  (exists s, makes (machineCreateErrorHandler cf m lks text) [(CNow, RTime now)] (WStatus (withStatus s m)) /\ reportsFailure cf m now text s) \/
  alreadyReports m now (codeString (s_code (fst (FromError text)))).
Proof.
  intros cf m lks text now. unfold machineCreateErrorHandler.
  destruct (update_made m ("Cloud provider message - " ++ text) (codeString (s_code (fst (FromError text))))
              (fun now => mkCur (createFailurePhase cf m now) false now) (if String.eqb lks "" then keptState m text else lks) now eq_refl (fail_phase cf m now)) as [H|H]; [|auto].
  left. eexists. split; [exact H|]. apply m_error in H as [(K & _)|(now' & s & K & E & _ & R & _)]; [discriminate|].
  injection K as <-. assert (X : s = mkMS (ms_conds (mo_status m)) (mkOp ("Cloud provider message - " ++ text) (codeString (s_code (fst (FromError text)))) now "Failed" "Create")
     (mkCur (createFailurePhase cf m now) false now) (if String.eqb lks "" then keptState m text else lks)).
  { apply (f_equal (fun c => match c with WStatus z => mo_status z | _ => s end)) in E. cbn in E. symmetry. exact E. }
  rewrite <- X. exact R.
Qed.

Lemma init_error_made : forall cf m text resp now, snd (FromError text) = true -> s_code (fst (FromError text)) <> cUnimplemented ->
  (exists s, makes (initializeMachine cf m) [(CInit m, PFail text resp); (CNow, RTime now)] (WStatus (withStatus s m)) /\ reportsFailure cf m now text s) \/
  alreadyReports m now (codeString (s_code (fst (FromError text)))).
Proof.
  intros cf m text resp now F N. destruct (FromError text) as [st ok] eqn:E. cbn in F, N. subst ok.
  destruct (update_made m ("Provider error: " ++ text ++ ". " ++ InstanceInitialization) (codeString (s_code st))
              (fun now => mkCur (createFailurePhase cf m now) false now) (ms_lks (mo_status m)) now eq_refl (fail_phase cf m now)) as [H|H]; [|auto].
  left. eexists. split.
  - unfold initializeMachine. apply makes_later. rewrite E. cbn [negb]. apply N.eqb_neq in N. rewrite N. exact H.
  - unfold reportsFailure. cbn [ms_op ms_cur lo_type lo_state lo_time lo_code lo_desc cs_timeoutActive cs_time cs_phase]. rewrite E.
    do 4 (split; [reflexivity|]). split; [exists "Provider error: ", (". " ++ InstanceInitialization)%string; reflexivity|].
    split; [reflexivity|]. split; [reflexivity|]. apply phase_late.
Qed.
