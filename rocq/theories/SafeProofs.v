(** Proofs about the API-server safety check. *)
Require Import Coq.ZArith.ZArith Coq.Lists.List Coq.Strings.String Coq.Bool.Bool Coq.micromega.Lia.
From Verif Require Import QueueModel QueueProofs SafeModel SafeSpec.
Import ListNotations.
Open Scope string_scope.
Open Scope list_scope.
Open Scope Z_scope.

Lemma up_false c t : isAPIServerUp c t = false <-> c = Broken \/ t = Broken.
Proof. destruct c, t; cbn; split; intros; auto; try discriminate; destruct H; discriminate. Qed.
Lemma up_true c t : isAPIServerUp c t = true <-> c <> Broken /\ t <> Broken.
Proof. destruct c, t; cbn; split; intros; auto; try discriminate; try (split; discriminate); destruct H as (A & B); congruence. Qed.

(** The time of the outage is the time of a check that failed. *)
Definition witnessed (timeout : Z) (w0 : SW) (ops : list SOp) : Prop :=
  let w := srun timeout w0 ops in
  forall t, s_down w = Some t -> t <= s_now w /\
    exists ops1 op ops2, ops = ops1 ++ op :: ops2 /\ down op /\ s_now (srun timeout w0 ops1) = t /\ s_frozen (srun timeout w0 ops1) = false.

Lemma srun_app timeout w a b : srun timeout w (a ++ b) = srun timeout (srun timeout w a) b.
Proof. apply fold_left_app. Qed.

Lemma probe_down timeout w c t lo g u w' :
  probe timeout w c t lo g u = w' ->
  (s_down w' = s_down w \/ s_down w' = None \/ (s_down w = None /\ s_down w' = Some (s_now w) /\ isAPIServerUp c t = false /\ s_frozen w = false)) /\ s_now w' = s_now w.
Proof.
  intros <-. unfold probe, reconcileAPIServer. destruct (s_frozen w) eqn:F.
  - destruct (isAPIServerUp c t).
    + destruct lo.
      * destruct (resetAll _ _ _ _ _ _) as ((st & la) & ok). destruct ok; destruct (afterRun _ _ _); cbn; auto.
      * destruct (afterRun _ _ _); cbn; auto.
    + destruct (afterRun _ _ _); cbn; auto.
  - destruct (isAPIServerUp c t) eqn:UP.
    + destruct (afterRun _ _ _); cbn; auto.
    + destruct (afterRun _ _ _); cbn. destruct (s_down w); auto. split; auto. right. right. auto.
Qed.

Lemma now_mono timeout w op : s_now w <= s_now (sstep timeout w op).
Proof.
  destruct op; cbn [sstep]; try lia.
  - destruct (s_scheduled w); [|lia]. destruct (probe_down timeout w control target listOk get upd _ eq_refl) as (_ & ->). lia.
  - destruct (find1 n (s_cache w)); [|lia]. destruct (_ && _); cbn; lia.
  - destruct (hasKey _ _); cbn; lia.
  - cbn. lia.
  - cbn. lia.
  - cbn. lia.
  - cbn. lia.
Qed.

Lemma down_kept timeout w op : s_down (sstep timeout w op) = s_down w \/ s_down (sstep timeout w op) = None \/
  (down op /\ s_down (sstep timeout w op) = Some (s_now w) /\ s_frozen w = false).
Proof.
  destruct op; cbn [sstep]; auto.
  - destruct (s_scheduled w); auto. destruct (probe_down timeout w control target listOk get upd _ eq_refl) as ([A | [A | (A & B & C & D)]] & _); auto.
    right. right. split; [apply up_false; exact C | auto].
  - destruct (find1 n (s_cache w)); auto. destruct (_ && _); auto.
  - destruct (hasKey _ _); auto.
Qed.

Lemma witnessed_run timeout w0 : s_down w0 = None -> forall ops, witnessed timeout w0 ops.
Proof.
  intros H0 ops. induction ops as [| op ops IH] using rev_ind.
  - intros t H. cbn in H. congruence.
  - intros t. rewrite srun_app. change (srun timeout (srun timeout w0 ops) [op]) with (sstep timeout (srun timeout w0 ops) op). intros H.
    destruct (down_kept timeout (srun timeout w0 ops) op) as [E | [E | (D & E & F)]].
    + rewrite E in H. destruct (IH t H) as (L & o1 & o & o2 & -> & D & N & F). split; [pose proof (now_mono timeout (srun timeout w0 (o1 ++ o :: o2)) op); lia|].
      exists o1, o, (o2 ++ [op]). split; [rewrite <- app_assoc; reflexivity | auto].
    + congruence.
    + rewrite E in H. injection H as <-. split; [apply now_mono|]. exists ops, op, []. auto.
Qed.

Lemma freezes timeout w op : s_frozen w = false -> s_frozen (sstep timeout w op) = true ->
  down op /\ exists t, s_down (sstep timeout w op) = Some t /\ timeout < s_now w - t /\ s_now (sstep timeout w op) = s_now w.
Proof.
  intros F. destruct op; cbn [sstep down]; try (cbn [s_frozen]; congruence).
  - destruct (s_scheduled w); [|congruence]. unfold probe, reconcileAPIServer. rewrite F. destruct (isAPIServerUp control target) eqn:UP.
    + destruct (afterRun _ _ _). cbn. congruence.
    + destruct (afterRun _ _ _). cbn. intros H. apply Z.ltb_lt in H. split; [apply up_false, UP|]. eexists. split; [reflexivity|]. split; [exact H | reflexivity].
  - destruct (find1 n (s_cache w)); [|congruence]. rewrite F. cbn. congruence.
  - destruct (hasKey _ _); cbn; congruence.
Qed.

(** * While frozen. *)
Lemma find1_put n x l : x_name x <> n -> find1 n (put x l) = find1 n l.
Proof.
  intros H. unfold find1, put. induction l as [| y l IH]; [reflexivity|]. cbn [map find].
  destruct (String.eqb_spec (x_name x) (x_name y)) as [E | E].
  - rewrite <- E. destruct (String.eqb_spec n (x_name x)); [congruence|]. exact IH.
  - destruct (String.eqb n (x_name y)); [reflexivity | exact IH].
Qed.
Lemma find1_put_same x l y : find1 (x_name x) l = Some y -> find1 (x_name x) (put x l) = Some x.
Proof.
  unfold find1, put. induction l as [| z l IH]; [discriminate|]. cbn [map find].
  destruct (String.eqb_spec (x_name x) (x_name z)) as [E | E]; cbn; intros H.
  - rewrite String.eqb_refl. reflexivity.
  - destruct (String.eqb_spec (x_name x) (x_name z)); [congruence|]. apply IH, H.
Qed.
Lemma find1_name n l x : find1 n l = Some x -> x_name x = n.
Proof. intros H. apply find_some in H. destruct H as (_ & H). apply String.eqb_eq in H. auto. Qed.

Record Quiet (n : string) (x : SM) (w : SW) : Prop := {
  u_frozen : s_frozen w = true; u_store : find1 n (s_store w) = Some x; u_cache : find1 n (s_cache w) = Some x;
  u_run : ~ In n (s_running w) }.

Lemma quiet_step timeout n x w op : x_deleting x = false -> Quiet n x w -> outage n op -> Quiet n x (sstep timeout w op).
Proof.
  intros ND [F S0 C R] O. destruct op; cbn [sstep outage] in *.
  - destruct (s_scheduled w); [|constructor; assumption]. apply up_false in O. unfold probe, reconcileAPIServer. rewrite F, O.
    destruct (afterRun _ _ _). constructor; assumption.
  - destruct (find1 n0 (s_cache w)) as [y|] eqn:E; [|constructor; assumption]. rewrite F. destruct (x_deleting y) eqn:DEL; cbn [andb negb]; [|constructor; assumption].
    constructor; cbn [s_frozen s_store s_cache s_running]; auto. intros [-> | I0]; [|auto]. congruence.
  - destruct (hasKey (x_name x0) (s_running w)) eqn:H; [|constructor; assumption]. apply hasKey_In in H.
    constructor; cbn [s_frozen s_store s_cache s_running]; auto. rewrite find1_put; [exact S0|]. intros E. rewrite E in H. auto.
  - constructor; cbn [s_frozen s_store s_cache s_running]; auto. intros I0. apply R. apply in_without in I0. apply I0.
  - constructor; cbn [s_frozen s_store s_cache s_running]; auto. rewrite find1_put; auto.
  - constructor; cbn [s_frozen s_store s_cache s_running]; auto.
  - constructor; cbn [s_frozen s_store s_cache s_running]; auto.
Qed.

Lemma quiet_run timeout n x : x_deleting x = false -> forall ops w, Quiet n x w -> Forall (outage n) ops -> Quiet n x (srun timeout w ops).
Proof.
  intros ND. induction ops as [| op ops IH]; intros w Q F; [exact Q|]. inversion F; subst. apply (IH (sstep timeout w op)); auto. apply quiet_step; auto.
Qed.

(** * Unfreezing. *)
Lemma resetAll_ok now get upd : forall l store later,
  (forall x, In x l -> x_phase x = "Unknown" -> get (x_name x) = true /\ upd (x_name x) = true /\ find1 (x_name x) store <> None) ->
  exists store', resetAll now get upd l store later = (store', later ++ map x_name l, true) /\
    (forall n, (exists x, In x l /\ x_phase x = "Unknown" /\ x_name x = n) ->
       forall y, find1 n store = Some y -> find1 n store' = Some (reset now y)) /\
    (forall n, ~ (exists x, In x l /\ x_phase x = "Unknown" /\ x_name x = n) -> find1 n store' = find1 n store).
Proof.
  induction l as [| x l IH]; intros store later H.
  - exists store. cbn. rewrite app_nil_r. split; [reflexivity|]. split; [|auto]. intros n (x & [] & _).
  - cbn [resetAll map]. destruct (String.eqb_spec (x_phase x) "Unknown") as [U | U].
    + destruct (H x (or_introl eq_refl) U) as (G & UP & FI). rewrite G. destruct (find1 (x_name x) store) as [y|] eqn:FY; [|congruence]. rewrite UP.
      pose proof (find1_name _ _ _ FY) as NY.
      assert (RN : x_name (reset now y) = x_name x) by exact NY.
      assert (FN : find1 (x_name x) (put (reset now y) store) = Some (reset now y)).
      { rewrite <- RN. apply find1_put_same with y. rewrite RN. exact FY. }
      destruct (IH (put (reset now y) store) (later ++ [x_name x])) as (st & E & R1 & R2).
      { intros z I0 UZ. destruct (H z (or_intror I0) UZ) as (A & B & C). split; [exact A|]. split; [exact B|].
        destruct (String.eqb_spec (x_name z) (x_name x)) as [-> | NE]; [congruence|]. rewrite find1_put; [exact C|]. rewrite RN. congruence. }
      exists st. rewrite E, <- app_assoc. split; [reflexivity|]. split.
      * intros n (z & I0 & UZ & NZ) y0 FY0. destruct (String.eqb_spec n (x_name x)) as [-> | NE].
        -- rewrite FY in FY0. injection FY0 as <-.
           destruct (existsb (fun z => String.eqb (x_phase z) "Unknown" && String.eqb (x_name z) (x_name x)) l) eqn:EX.
           ++ apply existsb_exists in EX. destruct EX as (z0 & IZ & EZ). apply andb_prop in EZ. destruct EZ as (Z1 & Z2).
              apply String.eqb_eq in Z1, Z2. rewrite (R1 (x_name x) (ex_intro _ z0 (conj IZ (conj Z1 Z2))) _ FN). reflexivity.
           ++ rewrite R2; [exact FN|]. intros (z0 & IZ & Z1 & Z2).
              assert (existsb (fun z => String.eqb (x_phase z) "Unknown" && String.eqb (x_name z) (x_name x)) l = true).
              { apply existsb_exists. exists z0. split; [exact IZ|]. rewrite Z1, Z2, !String.eqb_refl. reflexivity. }
              congruence.
        -- destruct I0 as [<- | I0]; [congruence|]. apply (R1 n (ex_intro _ z (conj I0 (conj UZ NZ)))).
           rewrite find1_put; [exact FY0|]. rewrite RN. congruence.
      * intros n NN. assert (NE : n <> x_name x) by (intros ->; apply NN; exists x; split; [left; reflexivity | auto]).
        rewrite R2; [rewrite find1_put; [reflexivity | rewrite RN; congruence]|]. intros (z & I0 & Q). apply NN. exists z. split; [right; exact I0 | exact Q].
    + destruct (IH store (later ++ [x_name x])) as (st & E & R1 & R2); [intros z I0; apply H; right; exact I0|].
      exists st. rewrite E, <- app_assoc. split; [reflexivity|]. split.
      * intros n (z & I0 & UZ & NZ). destruct I0 as [<- | I0]; [congruence|]. apply R1. exists z. auto.
      * intros n NN. apply R2. intros (z & I0 & Q). apply NN. exists z. split; [right; exact I0 | exact Q].
Qed.

Lemma resetAll_fails now get upd : forall l store later x, In x l -> x_phase x = "Unknown" ->
  get (x_name x) = false \/ upd (x_name x) = false -> snd (resetAll now get upd l store later) = false.
Proof.
  induction l as [| y l IH]; intros store later x I0 U H; [destruct I0|]. cbn [resetAll].
  destruct I0 as [<- | I0].
  - rewrite U. rewrite String.eqb_refl. destruct (get (x_name y)) eqn:G; [|reflexivity].
    destruct H as [H | H]; [congruence|]. destruct (find1 _ _); [|reflexivity]. rewrite H. reflexivity.
  - destruct (String.eqb (x_phase y) "Unknown"); [|eapply IH; eauto].
    destruct (if get (x_name y) then _ else _); [|reflexivity]. destruct (upd (x_name y)); [|reflexivity]. eapply IH; eauto.
Qed.

(** A check that is not scheduled never runs again. *)
Lemma stuck timeout : forall ops w, s_scheduled w = false -> s_frozen w = true -> s_frozen (srun timeout w ops) = true.
Proof.
  induction ops as [| op ops IH]; intros w S0 F; [exact F|]. apply (IH (sstep timeout w op)); destruct op; cbn [sstep]; rewrite ?S0; auto.
  - destruct (find1 n (s_cache w)); auto. destruct (_ && _); auto.
  - destruct (hasKey _ _); auto.
  - destruct (find1 n (s_cache w)); auto. destruct (_ && _); auto.
  - destruct (hasKey _ _); auto.
Qed.

(* An outage that lasts freezes. *)
Definition past (w : SW) : Prop := forall t, s_down w = Some t -> t <= s_now w.

Lemma past_step timeout w op : past w -> past (sstep timeout w op).
Proof.
  intros P t. destruct op as [c g lo get upd | n | x | n | x | | d]; cbn [sstep].
  - destruct (s_scheduled w); [|apply P]. unfold probe, reconcileAPIServer.
    destruct (s_frozen w), (isAPIServerUp c g); [destruct lo; [destruct (resetAll _ _ _ _ _ _) as [[st la] ok]; destruct ok|] | | | ]; unfold afterRun;
      try destruct (Nat.ltb _ _); cbn; try (intros E; discriminate E); try apply P.
    intros E. injection E as <-. destruct (s_down w) eqn:D; [apply P, D | lia].
  - destruct (find1 n (s_cache w)); [|apply P]. destruct (_ && _); apply P.
  - destruct (hasKey _ _); apply P.
  - apply P.
  - apply P.
  - apply P.
  - cbn. intros E. apply P in E. lia.
Qed.

Lemma past_run timeout : forall ops w, past w -> past (srun timeout w ops).
Proof. induction ops as [|op ops IH]; intros w P; [exact P|]. apply IH, past_step, P. Qed.

(* The check has noticed the outage at [t] or before, and will come again. *)
Record Noticed (t : Z) (w : SW) : Prop := { n_down : s_frozen w = true \/ exists t', s_down w = Some t' /\ t' <= t; n_sched : s_scheduled w = true }.

Lemma notices timeout w op : past w -> s_scheduled w = true -> down op -> Noticed (s_now w) (sstep timeout w op).
Proof.
  intros P S D. destruct op as [c g lo get upd | | | | | | ]; try destruct D. 
  all: cbn [sstep]; rewrite S; unfold probe, reconcileAPIServer.
  all: assert (U : isAPIServerUp c g = false) by (apply up_false; auto); rewrite U.
  all: destruct (s_frozen w) eqn:F; cbn; split; cbn; auto.
  all: right; eexists; split; [reflexivity|]; destruct (s_down w) eqn:E; [apply P, E | lia].
Qed.

Lemma noticed_step timeout t w op : Noticed t w -> ~ up op -> Noticed t (sstep timeout w op).
Proof.
  intros [N S] U. destruct op as [c g lo get upd | n | x | n | x | | d]; cbn [sstep].
  - rewrite S. assert (E : isAPIServerUp c g = false).
    { destruct (isAPIServerUp c g) eqn:E; [|reflexivity]. apply up_true in E. exfalso. apply U. exact E. }
    unfold probe, reconcileAPIServer. rewrite E. destruct (s_frozen w) eqn:F; cbn; split; cbn; auto.
    destruct N as [N | (t' & D & L)]; [discriminate N|]. right. rewrite D. eauto.
  - destruct (find1 n (s_cache w)); [|split; assumption]. destruct (_ && _); split; assumption.
  - destruct (hasKey _ _); split; assumption.
  - split; assumption.
  - split; assumption.
  - split; assumption.
  - split; assumption.
Qed.

Lemma noticed_run timeout t : forall ops w, Noticed t w -> Forall (fun o => ~ up o) ops -> Noticed t (srun timeout w ops).
Proof. induction ops as [|op ops IH]; intros w N F; [exact N|]. inversion F; subst. apply IH; [apply noticed_step|]; assumption. Qed.

Lemma noticed_freezes timeout t w op : Noticed t w -> down op -> timeout < s_now w - t -> s_frozen (sstep timeout w op) = true.
Proof.
  intros [N S] D L. destruct op as [c g lo get upd | | | | | | ]; try destruct D.
  all: cbn [sstep]; rewrite S; unfold probe, reconcileAPIServer.
  all: assert (U : isAPIServerUp c g = false) by (apply up_false; auto); rewrite U.
  all: destruct (s_frozen w) eqn:F; cbn; [exact F|].
  all: destruct N as [N | (t' & E & L')]; [discriminate N|]; rewrite E; apply Z.ltb_lt; lia.
Qed.

Lemma does_freeze timeout now store ops0 op1 ops op2 :
  let w := srun timeout (sinit now store) ops0 in
  s_scheduled w = true -> down op1 -> Forall (fun o => ~ up o) ops -> down op2 ->
  timeout < s_now (srun timeout w (op1 :: ops)) - s_now w ->
  s_frozen (srun timeout w (op1 :: ops ++ [op2])) = true.
Proof.
  intros w S D1 F D2 L.
  assert (P : past w) by (apply past_run; intros t E; discriminate E).
  rewrite app_comm_cons, srun_app. cbn [srun fold_left].
  apply noticed_freezes with (t := s_now w); [|exact D2 | exact L].
  apply noticed_run; [apply notices; assumption | exact F].
Qed.
