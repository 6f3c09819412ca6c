(* Proofs of C119. *)
Require Import List String Bool ZArith NArith Lia.
From Verif Require Import CodesModel MachModel LevModel HealthModel LifeModel DrvModel DrvSpec.
Import ListNotations.
Open Scope string_scope.
Open Scope list_scope.

Definition badReply (b : bool) (c : Call) (r : Reply) : Prop :=
  b = true /\ exists m text, c = CGetStatus m /\ r = PFail text None /\ says text cUninitialized.

(* The program panics only after the bad reply, and always then. *)
Fixpoint guarded (b : bool) (p : prog) : Prop :=
  match p with
  | Done => True
  | Panic => False
  | Do c k => forall r, (badReply b c r /\ k r = Panic) \/ (~ badReply b c r /\ guarded b (k r))
  end.

Ltac nb := let H := fresh in intros (_ & ? & ? & H & _); discriminate H.

Ltac gd := repeat match goal with
  | |- guarded _ Done => exact Logic.I
  | |- guarded _ (if ?x then _ else _) => destruct x
  | |- guarded _ (match ?x with _ => _ end) => destruct x
  | |- guarded _ (let _ := _ in _) => cbv zeta
  | |- guarded _ (Do (CGetStatus _) _) => fail 1
  | |- guarded _ (Do _ _) => let r := fresh "r" in intros r; right; split; [nb|]; cbv beta; destruct r
  end.

Lemma g_status : forall b m d c s t cur l, guarded b (statusUpdate m d c s t cur l).
Proof. intros. unfold statusUpdate. gd. Qed.
Lemma g_del : forall b m d s t l, guarded b (deletionUpdate m d s t l).
Proof. intros. apply g_status. Qed.
Ltac gs := gd; try apply g_status; try apply g_del.

Lemma g_init : forall b cf m, guarded b (initializeMachine cf m).
Proof. intros. unfold initializeMachine. gs. Qed.
Lemma g_pending : forall b m, guarded b (setPending m).
Proof. intros. unfold setPending. gs. Qed.
Lemma g_finish : forall b cf m u n p, guarded b (finishCreation cf m u n p).
Proof. intros. unfold finishCreation. gs; auto using g_init, g_pending. Qed.
Lemma g_err : forall b cf m l t, guarded b (machineCreateErrorHandler cf m l t).
Proof. intros. apply g_status. Qed.
Lemma g_create : forall b cf m, guarded b (createVM cf m).
Proof. intros. unfold createVM. gs; auto using g_finish, g_err. Qed.

Lemma says_code : forall text st c, FromError text = (st, true) -> (says text c <-> s_code st = c).
Proof.
  intros text st c E. unfold says. rewrite E. split.
  - intros (m & X). injection X as ->. reflexivity.
  - intros <-. destruct st as [x y]. exists y. reflexivity.
Qed.

Lemma says_ok : forall text st c, FromError text = (st, false) -> ~ says text c.
Proof. intros text st c E (m & X). rewrite E in X. discriminate. Qed.

Lemma g_flow : forall cf m, guarded true (triggerCreationFlow cf m).
Proof.
  intros cf m. unfold triggerCreationFlow. intros r. right. split; [nb|]. destruct r; try exact Logic.I.
  intros r. destruct r as [ | | | | | | | | node pid lks | text resp]; try (right; split; [intros (_ & ? & ? & _ & X & _); discriminate X | ]; try exact Logic.I).
  - apply g_finish.
  - destruct (FromError text) as [st ok] eqn:E. destruct ok; cbn [negb].
    + destruct (N.eqb_spec (s_code st) cNotFound) as [N1|N1]; [cbn [orb] | cbn [orb]; destruct (N.eqb_spec (s_code st) cUnimplemented) as [N2|N2]; [ | ]].
      * right. split; [|destruct (has _ _); [apply g_finish | apply g_create]].
        intros (_ & ? & ? & _ & X & Y). injection X as <- _. apply (says_code _ _ _ E) in Y. rewrite N1 in Y. discriminate.
      * right. split; [|destruct (has _ _); [apply g_finish | apply g_create]].
        intros (_ & ? & ? & _ & X & Y). injection X as <- _. apply (says_code _ _ _ E) in Y. rewrite N2 in Y. discriminate.
      * destruct (N.eqb_spec (s_code st) cUninitialized) as [N3|N3].
        -- destruct resp as [[[n p] l]|].
           ++ right. split; [intros (_ & ? & ? & _ & X & Y); discriminate X | apply g_finish].
           ++ left. split; [|reflexivity]. split; [reflexivity|]. exists m, text. repeat split. apply (says_code _ _ _ E). exact N3.
        -- right. split; [|apply g_err]. intros (_ & ? & ? & _ & X & Y). injection X as <- _. apply (says_code _ _ _ E) in Y. contradiction.
    + right. split; [|exact Logic.I]. intros (_ & ? & ? & _ & X & Y). injection X as <- _. exact (says_ok _ _ _ E Y).
Qed.

Lemma g_needed : forall cf m, guarded true (creationIfNeeded cf m).
Proof. intros. unfold creationIfNeeded. gd. apply g_flow. Qed.
Lemma g_health : forall cf m, guarded true (healthThenCreate cf m).
Proof. intros. unfold healthThenCreate. cbv zeta. gd; apply g_needed. Qed.
Lemma g_machine : forall cf m, guarded true (reconcileMachine cf m).
Proof. intros. unfold reconcileMachine. gd; auto using g_health, g_needed. Qed.

Lemma g_nodeLabel : forall m n, guarded false (updateMachineNodeLabel m n).
Proof. intros. unfold updateMachineNodeLabel. gs. Qed.
Lemma g_names : forall m, guarded false (updateMachineStatusAndNodeLabel m).
Proof.
  intros. unfold updateMachineStatusAndNodeLabel. gd; try apply g_del; try apply g_nodeLabel;
    (intros r; right; split; [intros (X & _); discriminate X|]; destruct r; try exact Logic.I; [apply g_nodeLabel | destruct (statusFailure text0) || destruct (statusFailure text); apply g_del]).
Qed.
Lemma g_drain : forall cf m, mo_dt m <> None -> guarded false (drainNode cf m).
Proof.
  intros cf m D. unfold drainNode, runDrain. destruct (String.eqb _ _); [apply g_del|].
  intros r. right. split; [nb|]. destruct r; try exact Logic.I. destruct (mo_dt m); [|congruence]. cbv zeta. gs.
Qed.
Lemma g_volumes : forall m, guarded false (deleteNodeVolAttachments m).
Proof. intros. unfold deleteNodeVolAttachments. cbv zeta. gs. Qed.
Lemma g_vm : forall m, guarded false (deleteVM m).
Proof. intros. unfold deleteVM. gs. Qed.
Lemma g_node : forall m, guarded false (deleteNodeObject m).
Proof. intros. unfold deleteNodeObject. cbv zeta. gs. Qed.
Lemma g_term : forall m, guarded false (setMachineTerminationStatus m).
Proof. intros. unfold setMachineTerminationStatus. gd. Qed.
Lemma g_fins : forall m, guarded false (deleteMachineFinalizers m).
Proof. intros. unfold deleteMachineFinalizers. gd. Qed.

(* The deletion flow gets to a drain. *)
Definition drains (m : MObj) : bool :=
  hasFin m && String.eqb (phase m) "Terminating" && negb (contains GetVMStatus (desc m)) && contains InitiateDrain (desc m).

Lemma flow_drains : forall cf m, drains m = true -> triggerDeletionFlow cf m = drainNode cf m.
Proof.
  intros cf m D. unfold drains in D. unfold triggerDeletionFlow.
  destruct (hasFin m); [|discriminate]. destruct (String.eqb _ _); [|discriminate]. cbn [negb].
  destruct (contains GetVMStatus _); [discriminate|]. destruct (contains InitiateDrain _); [reflexivity|discriminate].
Qed.

Lemma g_flow_else : forall cf m, drains m = false \/ mo_dt m <> None -> guarded false (triggerDeletionFlow cf m).
Proof.
  intros cf m [D | D].
  - unfold drains in D. unfold triggerDeletionFlow.
    destruct (hasFin m); [|exact Logic.I]. destruct (String.eqb _ _); cbn [negb]; [|apply g_term].
    destruct (contains GetVMStatus _); [apply g_names|]. destruct (contains InitiateDrain _); [discriminate D|].
    gd; auto using g_volumes, g_vm, g_node, g_fins, g_term.
  - unfold triggerDeletionFlow. gd; auto using g_term, g_names, g_drain, g_volumes, g_vm, g_node, g_fins.
Qed.

Lemma path_snoc : forall p h q, path p h q -> forall c k a, q = Do c k -> fits c a -> path p (h ++ [(c, a)]) (answer c k a).
Proof.
  induction 1 as [p | c0 k0 a0 h q F P IH]; intros c k a -> F'; cbn [app].
  - apply path_on; [exact F' | apply path_here].
  - apply path_on; [exact F | apply IH; [reflexivity | exact F']].
Qed.

(* A reply the driver call goes on with. *)
Lemma crash_cases : forall b c k a, (forall r, (badReply b c r /\ k r = Panic) \/ (~ badReply b c r /\ guarded b (k r))) -> fits c a ->
  (crashing b c a /\ answer c k a = Panic) \/ (~ crashing b c a /\ guarded b (answer c k a)).
Proof.
  intros b c k a G F. destruct a as [[resp err] | r].
  - cbn [answer]. destruct err as [e|].
    + unfold taken. cbn [ra_err ra_resp]. destruct (G (PFail e (option_map (fun x => (rs_node x, rs_pid x, rs_lks x)) resp))) as [(B & K) | (B & K)].
      * left. split; [|exact K]. destruct B as (-> & m & t & -> & E & S). right. split; [reflexivity|]. injection E as <- E.
        destruct resp; [discriminate E|]. eauto.
      * right. split; [|exact K]. intros [(E & _) | (-> & m & t & -> & E & S)]; [discriminate E|]. injection E as -> ->. apply B. split; [reflexivity|]. cbn [option_map]. eauto.
    + destruct resp as [x|]; unfold taken; cbn [ra_err ra_resp].
      * destruct (G (POk (rs_node x) (rs_pid x) (rs_lks x))) as [(B & K) | (B & K)].
        -- destruct B as (_ & m & t & _ & E & _). discriminate E.
        -- right. split; [|exact K]. intros [(E & _) | (_ & m & t & _ & E & _)]; discriminate E.
      * unfold fits in F. destruct c; cbn [toDriver] in F; try (destruct F as (r & F); discriminate F); cbn [checked];
          try (left; split; [left; split; [reflexivity|]; eauto | reflexivity]).
        right. split; [|destruct (G (POk "" "" "")) as [((_ & m' & t & _ & E & _) & _) | (_ & K)]; [discriminate E | exact K]].
        intros [(_ & [(x & E) | [(x & E) | (x & E)]]) | (_ & x & t & E & _)]; discriminate E.
  - cbn [answer]. right.
    assert (N : forall m, c <> CGetStatus m) by (intros m ->; destruct F as (d & F); discriminate F).
    split.
    + intros [(E & _) | (_ & m & t & _ & E & _)]; discriminate E.
    + destruct (G r) as [((_ & m & t & -> & _) & _) | (_ & K)]; [destruct (N m eq_refl) | exact K].
Qed.

Lemma panics_after : forall b p h q, path p h q -> guarded b p -> q = Panic ->
  exists h' c a, h = h' ++ [(c, a)] /\ asks p h' c /\ fits c a /\ crashing b c a.
Proof.
  intros b p h q P. induction P as [p | c k a h q F P IH]; intros G ->; [destruct G|].
  cbn [guarded] in G. destruct (crash_cases b c k a G F) as [(C & E) | (_ & G')].
  - rewrite E in P. inversion P; subst. exists [], c, a. split; [reflexivity|]. split; [|auto]. exists k. apply path_here.
  - destruct (IH G' eq_refl) as (h' & c' & a' & -> & (k' & A) & F' & C). exists ((c, a) :: h'), c', a'. split; [reflexivity|]. split; [|auto].
    exists k'. apply path_on; assumption.
Qed.

Lemma guarded_along : forall b p h q, path p h q -> guarded b p -> q = Panic \/ guarded b q.
Proof.
  intros b p h q P. induction P as [p | c k a h q F P IH]; intros G; [auto|].
  cbn [guarded] in G. destruct (crash_cases b c k a G F) as [(_ & E) | (_ & G')]; [|auto].
  rewrite E in P. inversion P; auto.
Qed.

Lemma panics_exactly : forall b p h, guarded b p ->
  (path p h Panic <-> exists h' c a, h = h' ++ [(c, a)] /\ asks p h' c /\ fits c a /\ crashing b c a).
Proof.
  intros b p h G. split; [intros P; exact (panics_after b p h _ P G eq_refl)|].
  intros (h' & c & a & -> & (k & P) & F & C).
  destruct (guarded_along b _ _ _ P G) as [E | G']; [discriminate E|]. cbn [guarded] in G'.
  destruct (crash_cases b c k a G' F) as [(_ & E) | (N & _)]; [|contradiction].
  rewrite <- E. exact (path_snoc _ _ _ P c k a eq_refl F).
Qed.

Lemma machine_panics : forall cf m h,
  path (reconcileMachine cf m) h Panic <->
  exists h' c a, h = h' ++ [(c, a)] /\ asks (reconcileMachine cf m) h' c /\ fits c a /\ crashing true c a.
Proof. intros. apply panics_exactly, g_machine. Qed.

Lemma no_crash : forall b c a, fits c a -> (forall d, a = ADrv d -> wellBehaved c d) -> ~ crashing b c a.
Proof.
  intros b c a F W [(-> & _) | (_ & m & t & -> & -> & S)].
  - destruct (W _ eq_refl) as (X & _). exact (X eq_refl eq_refl).
  - destruct (W _ eq_refl) as (_ & X). exact (X (ex_intro _ m eq_refl) t eq_refl S eq_refl).
Qed.

Lemma g_termination : forall cf m, drains m = false \/ mo_dt m <> None -> guarded false (reconcileTermination cf m).
Proof.
  intros cf m D. unfold reconcileTermination. intros r. right. split; [nb|]. destruct r; try exact Logic.I. apply g_flow_else, D.
Qed.

Lemma prefix_app : forall k b, String.prefix k (k ++ b) = true.
Proof. induction k as [|c k IH]; intros b; cbn; [destruct b; reflexivity|]. destruct (Ascii.ascii_dec c c); [apply IH | contradiction]. Qed.

Lemma prefix_split : forall k s, String.prefix k s = true -> exists b, s = (k ++ b)%string.
Proof.
  induction k as [|c k IH]; intros s H; [exists s; reflexivity|]. destruct s as [|d s]; [discriminate H|].
  cbn in H. destruct (Ascii.ascii_dec c d) as [->|]; [|discriminate H]. destruct (IH s H) as (b & ->). exists b. reflexivity.
Qed.

Lemma contains_within : forall k s, contains k s = true <-> within k s.
Proof.
  intros k s. split.
  - induction s as [|c s IH]; cbn [contains]; intros H; apply orb_true_iff in H; destruct H as [H|H].
    + apply prefix_split in H. destruct H as (b & H). exists "", b. exact H.
    + discriminate H.
    + apply prefix_split in H. destruct H as (b & H). exists "", b. exact H.
    + destruct (IH H) as (a & b & ->). exists (String c a), b. reflexivity.
  - intros (a & b & ->). induction a as [|c a IH]; cbn [append].
    + destruct (k ++ b)%string eqn:E; cbn [contains]; rewrite <- E, prefix_app; reflexivity.
    + cbn [contains]. rewrite IH. apply orb_true_r.
Qed.

Lemma drains_at : forall m, atDrain m <-> nodeName m <> "" /\ drains m = true.
Proof.
  intros m. unfold atDrain, drains. rewrite !andb_true_iff, negb_true_iff, String.eqb_eq, <- !contains_within.
  assert (H : hasFin m = true <-> In MCM (mo_fins m)).
  { unfold hasFin. rewrite existsb_exists. split; [intros (x & I0 & E); apply String.eqb_eq in E; subst; exact I0 | intros I0; exists MCM; split; [exact I0 | apply String.eqb_refl]]. }
  rewrite H, not_true_iff_false. tauto.
Qed.

Lemma g_termination_named : forall cf m, drains m = false \/ mo_dt m <> None \/ nodeName m = "" -> guarded false (reconcileTermination cf m).
Proof.
  intros cf m [D | [D | N]]; try (apply g_termination; auto; fail).
  destruct (drains m) eqn:D; [|apply g_termination; auto].
  unfold reconcileTermination. intros r. right. split; [nb|]. destruct r; try exact Logic.I.
  rewrite (flow_drains cf m D). unfold drainNode. rewrite N. apply g_del.
Qed.

Lemma termination_panics : forall cf m h,
  path (reconcileTermination cf m) h Panic <->
  (exists h' c a, h = h' ++ [(c, a)] /\ asks (reconcileTermination cf m) h' c /\ fits c a /\ crashing false c a) \/
  (mo_dt m = None /\ atDrain m /\ exists now, h = [(CClass, AOther RUnit); (CNow, AOther (RTime now))]).
Proof.
  intros cf m h.
  assert (Dec : (drains m = false \/ mo_dt m <> None \/ nodeName m = "") \/ (drains m = true /\ mo_dt m = None /\ nodeName m <> "")).
  { destruct (drains m); [|auto]. destruct (mo_dt m); [left; right; left; discriminate|]. destruct (string_dec (nodeName m) ""); auto. }
  destruct Dec as [G | (D & T & N)].
  - pose proof (panics_exactly false _ h (g_termination_named cf m G)) as E. rewrite E. split; [auto|].
    intros [X | (X & Y & _)]; [exact X|]. apply drains_at in Y. destruct Y. destruct G as [G | [G | G]]; congruence.
  - assert (K : reconcileTermination cf m = Do CClass (fun r => match r with RUnit => triggerDeletionFlow cf m | _ => Done end)) by reflexivity.
    assert (K2 : triggerDeletionFlow cf m = Do CNow (fun r => match r with RTime _ => Panic | _ => Done end)).
    { rewrite (flow_drains cf m D). unfold drainNode. destruct (String.eqb_spec (nodeName m) ""); [contradiction|]. rewrite T. reflexivity. }
    rewrite K2 in K. rewrite K. clear K K2. split.
    + intros P. right. split; [exact T|]. split; [apply drains_at; auto|].
      inversion P as [|c k a h1 q F P1]; subst. destruct F as (r & ->). cbn [answer] in P1. destruct r; inversion P1; subst.
      match goal with F : fits CNow _ |- _ => destruct F as (r & ->) end.
      match goal with P : path (answer _ _ _) _ _ |- _ => cbn [answer] in P; destruct r; inversion P; subst end. eauto.
    + intros [(h' & c & a & -> & (k & P) & F & C) | (_ & _ & now & ->)].
      * exfalso.
        assert (c = CClass \/ c = CNow) as [-> | ->].
        { clear - P. inversion P as [|c0 k0 a0 h1 q F P1]; subst; [auto|]. destruct F as (r & ->). cbn [answer] in P1. destruct r; inversion P1; subst; auto.
          match goal with F : fits CNow _ |- _ => destruct F as (r & ->) end.
          match goal with P : path (answer _ _ _) _ _ |- _ => cbn [answer] in P; destruct r; inversion P end. }
        -- destruct F as (r & ->). destruct C as [(E & _) | (E & _)]; discriminate E.
        -- destruct F as (r & ->). destruct C as [(E & _) | (E & _)]; discriminate E.
      * apply path_on; [exists RUnit; reflexivity|]. cbn [answer]. apply path_on; [exists (RTime now); reflexivity|]. apply path_here.
Qed.

(* Histories. *)
Definition slotOk (w : World) : Prop := forall p, w_c w = Some p -> p <> Panic /\ guarded true p.

Lemma store_c : forall w o n, w_c (store w o n) = w_c w.
Proof. intros. unfold store. destruct (MObj_eq_dec o n); reflexivity. Qed.
Lemma api_c : forall w g m f, w_c (fst (apiWrite w g m f)) = w_c w.
Proof. intros. unfold apiWrite. destruct f, (accepted w g m) as [[o n]|]; cbn [fst]; try reflexivity; apply store_c. Qed.
Lemma api_reply : forall w g m f t, snd (apiWrite w g m f) <> PFail t None.
Proof. intros. unfold apiWrite. destruct f, (accepted w g m) as [[o n]|]; cbn [snd]; discriminate. Qed.
Lemma perform_c : forall w q c r f vms, w_c (fst (perform w q c r f vms)) = w_c w.
Proof.
  intros. unfold perform. destruct c; try reflexivity;
    match goal with |- context [apiWrite ?w ?g ?m ?f] => pose proof (api_c w g m f) as X; destruct (apiWrite w g m f) as [w' r']; exact X end.
Qed.
Lemma perform_reply : forall w q c r f vms, snd (perform w q c r f vms) = r \/ ((forall m, c <> CGetStatus m)).
Proof. intros. unfold perform. destruct c; try (left; reflexivity); right; discriminate. Qed.

Lemma slot_step : forall cf w o, mannered o -> slotOk w -> slotOk (step cf w o).
Proof.
  intros cf w o M V.
  assert (G : forall w', w_c w' = w_c w -> slotOk w') by (intros w' E p; rewrite E; apply V).
  assert (NC : forall cf m, reconcileMachine cf m <> Panic) by (intros; discriminate).
  destruct o as [labels annots fins pid | | k v | k v | f | | | t | t r f vms | pid r vms | vms | d | ]; cbn [step].
  - destruct (w_obj w); [exact V | apply G; reflexivity].
  - destruct (w_obj w) as [o|]; [|exact V]. destruct (mo_dt o); [exact V | apply G, store_c].
  - destruct (w_obj w) as [o|]; [|exact V]. destruct (String.eqb k "node"); [exact V | apply G, store_c].
  - destruct (w_obj w) as [o|]; [|exact V]. apply G, store_c.
  - destruct (w_obj w) as [o|]; [|exact V]. apply G, store_c.
  - destruct (w_obj w) as [o|]; [|exact V]. apply G, store_c.
  - destruct (w_pend w); [exact V | apply G; reflexivity].
  - destruct (if t then w_t w else w_c w); [exact V|]. destruct (t && negb (w_tq w)); [exact V|].
    unfold start. destruct (w_view w) as [m|]; [|destruct t; [apply G; reflexivity | exact V]].
    destruct t; [apply G; reflexivity|]. destruct (mo_dt m); [exact V|].
    intros p E. cbn in E. injection E as <-. split; [apply NC | apply g_machine].
  - destruct t.
    + destruct (w_t w) as [[| | c k]|]; [apply G; reflexivity | intros p E; discriminate E | | exact V].
      pose proof (perform_c w QT c r f vms) as X. destruct (perform w QT c r f vms) as [w' r']. apply G. exact X.
    + destruct (w_c w) as [[| | c k]|] eqn:E; [intros p X; discriminate X | intros p X; discriminate X | | exact V].
      pose proof (perform_reply w QC c r f vms) as X. destruct (perform w QC c r f vms) as [w' r']. cbn [snd] in X.
      intros p Q. cbn in Q. injection Q as <-. destruct (V _ E) as (_ & S). cbn [guarded] in S.
      destruct (S r') as [((_ & m & text & -> & R & Y) & _) | (_ & Y)].
      * destruct X as [-> | X]; [|destruct (X m eq_refl)]. subst r. cbn in M. contradiction.
      * split; [|exact Y]. intros Z. rewrite Z in Y. exact Y.
  - destruct (spared _ _); [exact V | apply G; reflexivity].
  - apply G; reflexivity.
  - apply G; reflexivity.
  - intros p E; discriminate E.
Qed.

Lemma never_panics : forall cf now ops, Forall mannered ops -> w_c (run cf (init now) ops) <> Some Panic.
Proof.
  intros cf now ops F.
  assert (V : slotOk (run cf (init now) ops)).
  { unfold run. assert (B : slotOk (init now)) by (intros p E; discriminate E). revert F B. generalize (init now).
    induction ops as [|o ops IH]; intros w F B; [exact B|]. inversion F; subst. cbn [fold_left]. apply IH; [assumption|]. apply slot_step; assumption. }
  intros E. destruct (V _ E) as (X & _). congruence.
Qed.

Lemma panic_noted : forall cf now ops, w_c (run cf (init now) ops) = Some Panic ->
  exists ops1 text f vms ops2, ops = ops1 ++ OStep false (PFail text None) f vms :: ops2 /\ says text cUninitialized.
Proof.
  intros cf now ops E.
  assert (D : forall o, mannered o \/ exists text f vms, o = OStep false (PFail text None) f vms /\ says text cUninitialized).
  { intros o. destruct o as [ | | | | | | | | t r f vms | | | | ]; try (left; exact Logic.I). destruct t; [left; exact Logic.I|].
    destruct r as [ | | | | | | | | | text resp]; try (left; exact Logic.I). destruct resp; [left; exact Logic.I|].
    destruct (FromError text) as [st ok] eqn:EQ. destruct ok.
    - destruct (N.eq_dec (s_code st) cUninitialized) as [Y|Y].
      + right. exists text, f, vms. split; [reflexivity|]. apply (says_code _ _ _ EQ), Y.
      + left. cbn. intros S. apply (says_code _ _ _ EQ) in S. contradiction.
    - left. cbn. exact (says_ok _ _ _ EQ). }
  destruct (Exists_dec (fun o => exists text f vms, o = OStep false (PFail text None) f vms /\ says text cUninitialized) ops) as [X|X].
  { intros o. destruct o as [ | | | | | | | | t r f vms | | | | ]; try (right; intros (? & ? & ? & Q & _); discriminate Q).
    destruct t; [right; intros (? & ? & ? & Q & _); discriminate Q|].
    destruct r as [ | | | | | | | | | text resp]; try (right; intros (? & ? & ? & Q & _); discriminate Q).
    destruct resp; [right; intros (? & ? & ? & Q & _); discriminate Q|].
    destruct (FromError text) as [st ok] eqn:EQ. destruct ok.
    - destruct (N.eq_dec (s_code st) cUninitialized) as [Y|Y].
      + left. exists text, f, vms. split; [reflexivity|]. apply (says_code _ _ _ EQ), Y.
      + right. intros (? & ? & ? & Q & S). injection Q as <- _ _. apply (says_code _ _ _ EQ) in S. contradiction.
    - right. intros (? & ? & ? & Q & S). injection Q as <- _ _. exact (says_ok _ _ _ EQ S). }
  - apply Exists_exists in X. destruct X as (o & I0 & text & f & vms & -> & S). apply in_split in I0. destruct I0 as (l1 & l2 & ->). eauto 8.
  - exfalso. apply (never_panics cf now ops); [|exact E]. apply Forall_forall. intros o I0. destruct (D o) as [Y|Y]; [exact Y|].
    exfalso. apply X. apply Exists_exists. eauto.
Qed.

(* The next call, computed. *)
Fixpoint nextOf (p : prog) (h : list (Call * Ans)) : option prog :=
  match h, p with
  | [], p => Some p
  | (_, a) :: h', Do c k => nextOf (answer c k a) h'
  | _, _ => None
  end.
Definition callOf (o : option prog) : option Call := match o with Some (Do c _) => Some c | _ => None end.
Fixpoint callsOf (p : prog) (h : list (Call * Ans)) : list (option Call) :=
  match h with [] => [] | (_, a) :: h' => match p with Do c k => Some c :: callsOf (answer c k a) h' | _ => [None] end end.
Definition fitsb (x : Call * Ans) : bool := match snd x with ADrv _ => toDriver (fst x) | AOther _ => negb (toDriver (fst x)) end.

Lemma asks_computed : forall h p c, callsOf p h = map (fun x => Some (fst x)) h -> forallb fitsb h = true -> callOf (nextOf p h) = Some c -> asks p h c.
Proof.
  induction h as [|[c0 a] h IH]; intros p c E F N.
  - destruct p; try discriminate N. injection N as ->. eexists. apply path_here.
  - destruct p as [| | c1 k]; try discriminate E. cbn [callsOf map fst] in E. injection E as <- E.
    cbn [forallb] in F. apply andb_prop in F. destruct F as (F1 & F2). cbn [nextOf] in N.
    destruct (IH _ _ E F2 N) as (k' & P). exists k'. apply path_on; [|exact P].
    unfold fits. unfold fitsb in F1. cbn [fst snd] in F1. destruct a, (toDriver c1); try discriminate F1; eexists; reflexivity.
Qed.
