(* Lemmas for C96 and C97. *)
Require Import List String Bool ZArith Lia PeanoNat.
From Verif Require Import Types StatusModel MachModel PutModel PutSpec.
Import ListNotations.
Open Scope string_scope.
Open Scope list_scope.
Open Scope Z_scope.

Lemma run_app : forall a b w, prun w (a ++ b) = prun (prun w a) b.
Proof. intros. unfold prun. apply fold_left_app. Qed.
Lemma run_snoc : forall ops op, prun pinit (ops ++ [op]) = pstep (prun pinit ops) op.
Proof. intros. rewrite run_app. reflexivity. Qed.

Lemma past_more : forall ops post o, past ops o -> past (ops ++ post) o.
Proof. intros ops post o (a & b & -> & S). exists a, (b ++ post). split; [now rewrite app_assoc | exact S]. Qed.
Lemma past_now : forall ops o, stored (prun pinit ops) o -> past ops o.
Proof. intros ops o S. exists ops, []. split; [now rewrite app_nil_r | exact S]. Qed.
Lemma past_snoc : forall ops op o, past (ops ++ [op]) o -> past ops o \/ stored (prun pinit (ops ++ [op])) o.
Proof.
  intros ops op o (a & b & E & S). destruct b as [|x b] using rev_ind.
  - right. rewrite app_nil_r in E. rewrite E. exact S.
  - left. rewrite app_assoc in E. apply app_inj_tail in E as (E & _). exists a, b. auto.
Qed.
Lemma past_nil : forall o, ~ past [] o.
Proof. intros o (a & b & E & (v & S)). destruct a; [|discriminate]. discriminate. Qed.

Lemma calm_snoc : forall ops w op, calm w (ops ++ [op]) -> calm w ops /\ match op with ECreate _ _ _ => w_pc (prun w ops) = Idle | _ => True end.
Proof.
  induction ops as [|x ops IH]; intros w op H; cbn [app calm] in *.
  - destruct H as (H & _). split; [exact I | exact H].
  - destruct H as (H & K). apply IH in K as (K & L). split; [split; assumption | exact L].
Qed.

(* The tries of a reconcile come from one reading of the set. *)
Definition origin (ops : list POp) (pc : PC) (P : PSet -> Prop) : Prop :=
  match pc with
  | Idle => True
  | Read rd => past ops rd /\ P rd
  | Trying _ _ n g | Again n g => exists rd now l err, past ops rd /\ P rd /\ n = computed rd now l err /\ g = p_gen rd
  end.

Lemma origin_more : forall ops op pc (P Q : PSet -> Prop), (forall rd, P rd -> Q rd) -> origin ops pc P -> origin (ops ++ [op]) pc Q.
Proof.
  intros ops op pc P Q I H. destruct pc; cbn in *; [exact H | | |].
  - destruct H. split; [apply past_more; assumption | auto].
  - destruct H as (rd & now & l & err & A & B & C). exists rd, now, l, err. split; [apply past_more; assumption | auto].
  - destruct H as (rd & now & l & err & A & B & C). exists rd, now, l, err. split; [apply past_more; assumption | auto].
Qed.

(* What OPut does. *)
Lemma put_step : forall w f, match w_pc w with
  | Trying i v n g =>
      (w_set (pstep w (OPut f)) = w_set w \/ exists v' o, w_set w = Some (v', o) /\ w_set (pstep w (OPut f)) = Some (w_next w, withSt n g o)) /\
      w_uids (pstep w (OPut f)) = w_uids w /\ (w_pc (pstep w (OPut f)) = Idle \/ w_pc (pstep w (OPut f)) = Again n g)
  | _ => pstep w (OPut f) = w
  end.
Proof.
  intros w f. destruct (w_pc w) as [|is|i v n g|n g] eqn:PC; cbn [pstep]; rewrite PC; try reflexivity.
  unfold updateStatus. destruct (w_set w) as [[v' o]|] eqn:S.
  - destruct f; [| |]; try (destruct (Nat.eqb v v')); cbn [stored_ w_set goto w_uids w_pc]; destruct (Nat.leb statusUpdateRetries i);
      cbn [stored_ w_set goto w_uids w_pc]; (split; [eauto|]); (split; [reflexivity|]); auto.
  - destruct f; destruct (Nat.leb statusUpdateRetries i); cbn [w_set goto w_uids w_pc]; (split; [auto|]); auto.
Qed.

(* Without assumptions: a write comes from a reading. *)
Lemma origin_run : forall ops, origin ops (w_pc (prun pinit ops)) (fun _ => True).
Proof.
  induction ops as [|op ops IH] using rev_ind; [exact I|]. rewrite run_snoc.
  pose proof (fun pc => origin_more ops op pc (fun _ => True) (fun _ => True) (fun _ H => H)) as M.
  set (w := prun pinit ops) in *.
  assert (SAME : w_pc (pstep w op) = w_pc w -> origin (ops ++ [op]) (w_pc (pstep w op)) (fun _ => True)) by (intros ->; apply M, IH).
  destruct op; try (apply SAME; cbn [pstep]; destruct (w_set w) as [[? ?]|]; reflexivity); [ | | | |exact I].
  - cbn [pstep]. destruct (w_pc w) eqn:PC; try (rewrite PC; apply M, IH). destruct (w_set w) as [[v o]|] eqn:S; [|rewrite PC; exact I].
    cbn [w_pc]. split; [|exact I]. apply past_more, past_now. exists v. exact S.
  - cbn [pstep]. destruct (w_pc w) as [|is|i v n g|n g] eqn:PC; try (rewrite PC; apply M, IH). cbv zeta. destruct (steady _ _); [exact I|].
    cbn [w_pc goto origin]. destruct IH as (A & _). exists is, now, l, err. split; [apply past_more; exact A|]. auto.
  - pose proof (put_step w f) as P. destruct (w_pc w) as [|is|i v n g|n g] eqn:PC; try (rewrite P, PC; apply M; exact IH).
    destruct P as (_ & _ & [-> | ->]); [exact I|]. apply (M (Again n g)). exact IH.
  - cbn [pstep]. destruct (w_pc w) as [|is|i v n g|n g] eqn:PC; try (rewrite PC; apply M; exact IH).
    destruct ok; [|exact I]. destruct (w_set w) as [[v o]|]; [|exact I]. apply (M (Trying 1 v n g)). exact IH.
Qed.

Lemma write_true : forall ops op, controllers op ->
  w_set (pstep (prun pinit ops) op) = w_set (prun pinit ops) \/
  exists o o' rd now l err, stored (prun pinit ops) o /\ stored (pstep (prun pinit ops) op) o' /\
    past ops rd /\ onlyStatus o' o /\ p_status o' = computed rd now l err /\ p_obs o' = p_gen rd.
Proof.
  intros ops op C. pose proof (origin_run ops) as O. set (w := prun pinit ops) in *. destruct op; try (destruct C; fail).
  - left. cbn [pstep]. destruct (w_pc w); try reflexivity. destruct (w_set w) as [[v o]|] eqn:S; [reflexivity | exact S].
  - left. cbn [pstep]. destruct (w_pc w); try reflexivity. cbv zeta. destruct (steady _ _); reflexivity.
  - pose proof (put_step w f) as P. destruct (w_pc w) as [|is|i v n g|n g] eqn:PC; try (left; rewrite P; reflexivity).
    destruct P as ([P|(v' & o & S & P)] & _ & _); [left; exact P|]. right. destruct O as (rd & now & l & err & A & _ & -> & ->).
    exists o, (withSt (computed rd now l err) (p_gen rd) o), rd, now, l, err. split; [exists v'; exact S|]. split; [eexists; exact P|]. split; [exact A|].
    split; [repeat split|]. auto.
  - left. cbn [pstep]. destruct (w_pc w); try reflexivity. destruct ok; [|reflexivity]. destruct (w_set w) as [[v o]|] eqn:S; [exact S | exact S].
  - left. reflexivity.
Qed.

(* With no re-creation under a running reconcile. *)
Definition tied (w : PW) (rd : PSet) : Prop := forall o, stored w o -> p_uid o = p_uid rd /\ p_obs o <= p_gen rd /\ p_gen rd <= p_gen o.

Record calmInv (ops : list POp) : Prop := mkInv {
  i_cur : forall o, stored (prun pinit ops) o -> (p_uid o <= w_uids (prun pinit ops))%nat /\ 0 <= p_obs o <= p_gen o /\ 1 <= p_gen o;
  i_past : forall p, past ops p -> (p_uid p <= w_uids (prun pinit ops))%nat /\
     (forall o, stored (prun pinit ops) o -> p_uid o = p_uid p -> p_gen p <= p_gen o /\ p_obs p <= p_obs o /\ (p_gen p = p_gen o -> p_replicas p = p_replicas o /\ p_tmpl p = p_tmpl o));
  i_pc : origin ops (w_pc (prun pinit ops)) (tied (prun pinit ops));
  i_from : forall o, stored (prun pinit ops) o -> (p_obs o = 0 /\ sameCounts (p_status o) (mkSStatus 0 0 0 0 None [])) \/
     exists rd now l err, past ops rd /\ p_uid rd = p_uid o /\ p_gen rd = p_obs o /\ sameCounts (p_status o) (computed rd now l err) }.

Lemma st_fun : forall w a b, stored w a -> stored w b -> a = b.
Proof. intros w a b (v & A) (v' & B). rewrite A in B. congruence. Qed.
Lemma st_set : forall w w' o, w_set w' = w_set w -> stored w' o -> stored w o.
Proof. intros w w' o E (v & S). exists v. rewrite <- E. exact S. Qed.

(* A step that replaces the stored set by one of the same UID. *)
Lemma inv_replace : forall ops op o o',
  calmInv ops -> stored (prun pinit ops) o -> stored (prun pinit (ops ++ [op])) o' ->
  w_uids (prun pinit (ops ++ [op])) = w_uids (prun pinit ops) ->
  p_uid o' = p_uid o -> p_gen o <= p_gen o' -> (p_gen o = p_gen o' -> p_replicas o = p_replicas o' /\ p_tmpl o = p_tmpl o') -> p_obs o <= p_obs o' <= p_gen o' ->
  origin (ops ++ [op]) (w_pc (prun pinit (ops ++ [op]))) (tied (prun pinit (ops ++ [op]))) ->
  ((p_obs o' = 0 /\ sameCounts (p_status o') (mkSStatus 0 0 0 0 None [])) \/
     exists rd now l err, past (ops ++ [op]) rd /\ p_uid rd = p_uid o' /\ p_gen rd = p_obs o' /\ sameCounts (p_status o') (computed rd now l err)) ->
  calmInv (ops ++ [op]).
Proof.
  intros ops op o o' [A B C D] S S' U E1 E2 E3 E4 PC F. destruct (A o S) as (A1 & A2 & A3).
  constructor.
  - intros x X. assert (x = o') as -> by (eapply st_fun; eassumption). rewrite U. lia.
  - intros p P. rewrite U. apply past_snoc in P as [P|P].
    + destruct (B p P) as (B1 & B2). split; [exact B1|]. intros x X E. assert (x = o') as -> by (eapply st_fun; eassumption).
      destruct (B2 o S) as (G1 & G2 & G3); [congruence|]. split; [lia|]. split; [lia|]. intros G.
      assert (G' : p_gen p = p_gen o) by lia. destruct (G3 G') as (-> & ->). apply E3. lia.
    + assert (p = o') as -> by (eapply st_fun; eassumption). split; [lia|]. intros x X _. assert (x = o') as -> by (eapply st_fun; eassumption). lia || (split; [lia|split; [lia|auto]]).
  - exact PC.
  - intros x X. assert (x = o') as -> by (eapply st_fun; eassumption). exact F.
Qed.

(* A step that leaves the stored set alone. *)
Lemma inv_same : forall ops op, calmInv ops -> w_set (prun pinit (ops ++ [op])) = w_set (prun pinit ops) \/ w_set (prun pinit (ops ++ [op])) = None ->
  w_uids (prun pinit (ops ++ [op])) = w_uids (prun pinit ops) ->
  origin (ops ++ [op]) (w_pc (prun pinit (ops ++ [op]))) (tied (prun pinit (ops ++ [op]))) -> calmInv (ops ++ [op]).
Proof.
  intros ops op [A B C D] S U PC.
  assert (ST : forall o, stored (prun pinit (ops ++ [op])) o -> stored (prun pinit ops) o).
  { intros o X. destruct S as [S|S]; [eapply st_set; eassumption|]. destruct X as (v & X). rewrite S in X. discriminate. }
  constructor.
  - intros o X. rewrite U. apply A, ST, X.
  - intros p P. rewrite U. assert (P' : past ops p) by (apply past_snoc in P as [P|P]; [exact P | apply past_now, ST, P]).
    destruct (B p P') as (B1 & B2). split; [exact B1|]. intros o X. apply B2, ST, X.
  - exact PC.
  - intros o X. destruct (D o (ST o X)) as [Y|(rd & now & l & err & P & Y)]; [auto|]. right. exists rd, now, l, err. split; [apply past_more; exact P | exact Y].
Qed.

Lemma calm_inv : forall ops, calm pinit ops -> calmInv ops.
Proof.
  induction ops as [|op ops IH] using rev_ind; intros C.
  - constructor; cbn; [intros o (v & S); discriminate | intros p P; destruct (past_nil _ P) | exact I | intros o (v & S); discriminate].
  - apply calm_snoc in C as (C & K). specialize (IH C). pose proof IH as INV. destruct IH as [A B PCI D].
    pose proof (run_snoc ops op) as R. set (w := prun pinit ops) in *.
    assert (TN : forall w', w_set w' = w_set w \/ w_set w' = None -> forall rd, tied w rd -> tied w' rd).
    { intros w' S rd T o X. apply T. destruct S as [S|S]; [eapply st_set; eassumption|]. destruct X as (v & X). rewrite S in X. discriminate. }
    assert (FROM : forall o o', stored w o -> p_uid o' = p_uid o -> p_obs o' = p_obs o -> sameCounts (p_status o') (p_status o) ->
      ((p_obs o' = 0 /\ sameCounts (p_status o') (mkSStatus 0 0 0 0 None [])) \/
       exists rd now l err, past (ops ++ [op]) rd /\ p_uid rd = p_uid o' /\ p_gen rd = p_obs o' /\ sameCounts (p_status o') (computed rd now l err))).
    { intros o o' S E1 E2 (F1 & F2 & F3 & F4 & F5). rewrite E1, E2. destruct (D o S) as [(Y & Z)|(rd & now & l & err & P & Y & Z & T)].
      - left. split; [exact Y|]. unfold sameCounts in *. rewrite F1, F2, F3, F4, F5. exact Z.
      - right. exists rd, now, l, err. split; [apply past_more; exact P|]. split; [exact Y|]. split; [exact Z|]. unfold sameCounts in *. rewrite F1, F2, F3, F4, F5. exact T. }
    assert (ENV : forall v o o' nx, w_set w = Some (v, o) -> prun pinit (ops ++ [op]) = mkPW (Some (nx, o')) (S (w_next w)) (w_uids w) (w_pc w) (w_ver w) ->
       p_uid o' = p_uid o -> p_gen o <= p_gen o' -> (p_gen o = p_gen o' -> p_replicas o = p_replicas o' /\ p_tmpl o = p_tmpl o') -> p_obs o' = p_obs o ->
       sameCounts (p_status o') (p_status o) -> calmInv (ops ++ [op])).
    { intros v o o' nx S E E1 E2 E3 E4 E5. assert (SO : stored w o) by (exists v; exact S).
      assert (SO' : stored (prun pinit (ops ++ [op])) o') by (exists nx; rewrite E; reflexivity). destruct (A o SO) as (A1 & A2 & A3).
      apply (inv_replace ops op o o'); auto; [rewrite E; reflexivity | lia | | apply (FROM o o'); auto].
      rewrite E at 1. cbn [w_pc]. eapply origin_more; [|exact PCI]. intros rd T x X.
      assert (x = o') as -> by (eapply st_fun; eassumption). destruct (T o SO) as (T1 & T2 & T3). split; [congruence|]. lia. }
    destruct op; cbn [pstep] in R.
    + destruct (w_set w) as [[v o]|] eqn:S.
      * eapply ENV; [reflexivity | exact R | reflexivity | cbn; lia | cbn; lia | reflexivity | repeat split].
      * apply inv_same; [exact INV | left; rewrite R; reflexivity | rewrite R; reflexivity|]. rewrite R. eapply origin_more; [|exact PCI]. auto.
    + destruct (w_set w) as [[v o]|] eqn:S.
      * eapply ENV; [reflexivity | exact R | reflexivity | cbn; lia | cbn; auto | reflexivity | repeat split].
      * apply inv_same; [exact INV | left; rewrite R; reflexivity | rewrite R; reflexivity|]. rewrite R. eapply origin_more; [|exact PCI]. auto.
    + destruct (w_set w) as [[v o]|] eqn:S.
      * eapply ENV; [reflexivity | exact R | reflexivity | cbn; lia | cbn; auto | reflexivity | repeat split].
      * apply inv_same; [exact INV | left; rewrite R; reflexivity | rewrite R; reflexivity|]. rewrite R. eapply origin_more; [|exact PCI]. auto.
    + apply inv_same; [exact INV | right; rewrite R; reflexivity | rewrite R; reflexivity|]. rewrite R at 1. cbn [w_pc]. eapply origin_more; [|exact PCI].
      apply TN. right. rewrite R. reflexivity.
    + destruct (w_set w) as [[v o]|] eqn:S.
      * apply inv_same; [exact INV | left; rewrite R; reflexivity | rewrite R; reflexivity|]. rewrite R. eapply origin_more; [|exact PCI]. auto.
      * constructor.
        -- intros x (v & X). rewrite R in X. injection X as _ <-. rewrite R. cbn. lia.
        -- intros p P. rewrite R. cbn [w_uids]. apply past_snoc in P as [P|P].
           ++ destruct (B p P) as (B1 & _). split; [lia|]. intros x (v & X) E. cbn in X. injection X as _ <-. cbn in E. lia.
           ++ destruct P as (v & X). rewrite R in X. injection X as _ <-. cbn. split; [lia|]. intros x (v' & X) _. cbn in X. injection X as _ <-. cbn. split; [lia|]. split; [lia | auto].
        -- rewrite R. cbn [w_pc]. rewrite K. exact I.
        -- intros x (v & X). rewrite R in X. injection X as _ <-. left. repeat split.
    + destruct (w_pc w) eqn:PC; try (apply inv_same; [exact INV | left; rewrite R; reflexivity | rewrite R; reflexivity|]; rewrite R, PC; eapply origin_more; [|exact PCI]; auto).
      destruct (w_set w) as [[v o]|] eqn:S.
      * assert (SO : stored w o) by (exists v; exact S).
        apply inv_same; [exact INV | left; rewrite R; first [reflexivity | symmetry; exact S] | rewrite R; reflexivity|]. rewrite R at 1. cbn [w_pc origin]. split; [apply past_more, past_now; exact SO|].
        intros x (v' & X). rewrite R in X. cbn in X. injection X as <- <-. destruct (A o SO) as (A1 & A2 & A3). split; [reflexivity|]. lia.
      * apply inv_same; [exact INV | left; rewrite R; reflexivity | rewrite R; reflexivity|]. rewrite R, PC. exact I.
    + destruct (w_pc w) as [|is|i v n g|n g] eqn:PC; try (apply inv_same; [exact INV | left; rewrite R; reflexivity | rewrite R; reflexivity|]; rewrite R, PC; eapply origin_more; [|exact PCI]; auto).
      cbv zeta in R. destruct (steady _ _).
      * apply inv_same; [exact INV | left; rewrite R; reflexivity | rewrite R; reflexivity|]. rewrite R. exact I.
      * apply inv_same; [exact INV | left; rewrite R; reflexivity | rewrite R; reflexivity|]. rewrite R at 1. cbn [w_pc goto origin]. destruct PCI as (P & T).
        exists is, now, l, err. split; [apply past_more; exact P|]. split; [apply (TN _); [left; rewrite R; reflexivity | exact T]|]. auto.
    + pose proof (put_step w f) as P. cbn [pstep] in P.
      destruct (w_pc w) as [|is|i v n g|n g] eqn:PC; try (apply inv_same; [exact INV | left; rewrite R; reflexivity | rewrite R; reflexivity|]; rewrite R, PC; eapply origin_more; [|exact PCI]; auto).
      rewrite <- R in P. destruct P as (PS & PU & PP).
      assert (PO : forall Q : PSet -> Prop, (forall rd, tied w rd -> Q rd) -> origin (ops ++ [OPut f]) (w_pc (prun pinit (ops ++ [OPut f]))) Q).
      { intros Q H. destruct PP as [-> | ->]; [exact I|]. apply (origin_more ops (OPut f) (Again n g) (tied w) Q H). exact PCI. }
      destruct PS as [PS|(v' & o & S & PS)].
      * apply inv_same; [exact INV | left; exact PS | exact PU|]. apply PO. apply TN. left. exact PS.
      * assert (SO : stored w o) by (exists v'; exact S). destruct (A o SO) as (A1 & A2 & A3).
        destruct PCI as (rd & now & l & err & P & T & EN & EG). destruct (T o SO) as (T1 & T2 & T3).
        assert (SN : stored (prun pinit (ops ++ [OPut f])) (withSt n g o)) by (eexists; exact PS).
        apply (inv_replace ops (OPut f) o (withSt n g o)); auto; [cbn; lia | cbn; lia| |].
        -- destruct PP as [-> | ->]; [exact I|]. exists rd, now, l, err. split; [apply past_more; exact P|]. split; [|auto].
           intros x X. assert (x = withSt n g o) as -> by (eapply st_fun; eassumption). cbn. lia.
        -- right. exists rd, now, l, err. split; [apply past_more; exact P|]. cbn. split; [congruence|]. split; [congruence|]. rewrite EN. repeat split.
    + destruct (w_pc w) as [|is|i v n g|n g] eqn:PC; try (apply inv_same; [exact INV | left; rewrite R; reflexivity | rewrite R; reflexivity|]; rewrite R, PC; eapply origin_more; [|exact PCI]; auto).
      assert (E : pstep w (OGet ok) = goto w Idle \/ exists v, pstep w (OGet ok) = goto w (Trying 1 v n g)).
      { cbn [pstep]. rewrite PC. destruct ok; [|auto]. destruct (w_set w) as [[v o]|]; [right; eauto | auto]. }
      cbn [pstep] in E. rewrite PC in E. destruct E as [E|(v & E)]; rewrite E in R.
      * apply inv_same; [exact INV | left; rewrite R; reflexivity | rewrite R; reflexivity|]. rewrite R. exact I.
      * apply inv_same; [exact INV | left; rewrite R; reflexivity | rewrite R; reflexivity|]. rewrite R at 1. cbn [w_pc goto].
        apply (origin_more ops (OGet ok) (Trying 1 v n g) (tied w)); [apply TN; left; rewrite R; reflexivity | exact PCI].
    + apply inv_same; [exact INV | left; rewrite R; reflexivity | rewrite R; reflexivity|]. rewrite R. exact I.
Qed.

Lemma conds_eq_iff : forall a b, conds_eq a b = true <-> a = b.
Proof. intros a b. unfold conds_eq. destruct (list_eq_dec _ a b); split; congruence. Qed.
Lemma failed_eq_iff : forall a b, failed_eq a b = true <-> a = b.
Proof. intros [a|] [b|]; unfold failed_eq; try destruct (list_eq_dec _ a b); split; congruence. Qed.

Lemma steady_iff : forall o n, steady o n = true <-> sameCounts (p_status o) n /\ st_conds (p_status o) = st_conds n /\ p_gen o = p_obs o.
Proof.
  intros o n. unfold steady, sameCounts. rewrite !andb_true_iff, !Z.eqb_eq, conds_eq_iff, failed_eq_iff. tauto.
Qed.

(* Others leave the reconcile alone. *)
Lemma harmless_run : forall e w o, Forall harmless e -> stored w o ->
  w_pc (prun w e) = w_pc w /\ w_ver (prun w e) = w_ver w /\ (exists o', stored (prun w e) o').
Proof.
  induction e as [|op e IH]; intros w o F S; [eauto|]. inversion F as [|x y H1 H2]; subst. cbn [prun fold_left].
  assert (K : exists o', stored (pstep w op) o' /\ w_pc (pstep w op) = w_pc w /\ w_ver (pstep w op) = w_ver w).
  { destruct S as (v & S). destruct op; try (destruct H1; fail); cbn [pstep]; rewrite S; eexists; (split; [eexists; reflexivity | split; reflexivity]). }
  destruct K as (o' & S' & P & V). destruct (IH _ o' H2 S') as (A & B & C). fold (prun (pstep w op) e). rewrite A, B. auto.
Qed.

Lemma put_applied : forall w i v n g o, w_pc w = Trying i v n g -> stored w o ->
  let w' := pstep w (OPut Applied) in
  (exists o', w' = goto (stored_ w o') Idle /\ p_status o' = n /\ p_obs o' = g) \/
  (w' = goto w (if Nat.leb 1 i then Idle else Again n g) /\ w_set w <> Some (v, o)).
Proof.
  intros w i v n g o P (v' & S) w'. unfold w'. cbn [pstep]. rewrite P. unfold updateStatus. rewrite S.
  destruct (Nat.eqb_spec v v') as [-> | N].
  - left. exists (withSt n g o). auto.
  - right. change statusUpdateRetries with 1%nat. split; [destruct (Nat.leb 1 i); reflexivity | congruence].
Qed.

Lemma idle_stays : forall w ops, w_pc w = Idle -> Forall (fun op => match op with OPut _ | OGet _ => True | _ => False end) ops -> prun w ops = w.
Proof.
  intros w ops P F. induction F as [|op ops H F IH]; [reflexivity|]. cbn [prun fold_left].
  replace (pstep w op) with w; [exact IH|]. destruct op; try (destruct H; fail); cbn [pstep]; rewrite P; reflexivity.
Qed.

Lemma succeeds : forall w o now l err e1 e2, w_pc w = Idle -> stored w o -> Forall harmless e1 -> Forall harmless e2 ->
  let w1 := prun w (OBegin :: e1 ++ OCompute now l err :: e2) in
  let w2 := prun w1 [OPut Applied; OGet true; OPut Applied] in
  w_pc w2 = Idle /\
  ((sameCounts (p_status o) (computed o now l err) /\ st_conds (p_status o) = st_conds (computed o now l err) /\ p_gen o = p_obs o /\ w2 = w1) \/
   (exists o', stored w2 o' /\ p_status o' = computed o now l err /\ p_obs o' = p_gen o)).
Proof.
  intros w o now l err e1 e2 P S F1 F2. destruct S as (v & S). cbv zeta.
  assert (EB : pstep w OBegin = mkPW (w_set w) (w_next w) (w_uids w) (Read o) v) by (cbn [pstep]; rewrite P, S; reflexivity).
  change (OBegin :: e1 ++ OCompute now l err :: e2) with ([OBegin] ++ (e1 ++ [OCompute now l err] ++ e2)). rewrite !run_app.
  change (prun w [OBegin]) with (pstep w OBegin). rewrite EB. set (wb := mkPW (w_set w) (w_next w) (w_uids w) (Read o) v).
  destruct (harmless_run e1 wb o F1) as (P1 & V1 & (o1 & S1)); [exists v; exact S|]. set (wc := prun wb e1) in *. cbn [wb w_pc w_ver] in P1, V1.
  change (prun wc [OCompute now l err]) with (pstep wc (OCompute now l err)). cbn [pstep]. rewrite P1. fold (computed o now l err).
  destruct (steady o (computed o now l err)) eqn:ST.
  - apply steady_iff in ST as (A & B & C).
    destruct (harmless_run e2 (goto wc Idle) o1 F2) as (P2 & _ & _); [exact S1|]. set (wd := prun (goto wc Idle) e2) in *.
    rewrite (idle_stays wd); [|exact P2 | repeat constructor]. split; [exact P2|]. left. auto.
  - destruct (harmless_run e2 (goto wc (Trying 0 (w_ver wc) (computed o now l err) (p_gen o))) o1 F2) as (P2 & _ & (o2 & S2)); [exact S1|].
    set (wd := prun _ e2) in *. cbn [goto w_pc] in P2.
    change (prun wd [OPut Applied; OGet true; OPut Applied]) with (prun (pstep wd (OPut Applied)) [OGet true; OPut Applied]).
    destruct (put_applied wd _ _ _ _ o2 P2 S2) as [(o' & -> & E1 & E2)|(-> & _)].
    + rewrite idle_stays; [|reflexivity | repeat constructor]. split; [reflexivity|]. right. exists o'. split; [eexists; reflexivity | auto].
    + cbn [Nat.leb]. destruct S2 as (v2 & S2). change (prun (goto wd (Again (computed o now l err) (p_gen o))) [OGet true; OPut Applied])
        with (pstep (pstep (goto wd (Again (computed o now l err) (p_gen o))) (OGet true)) (OPut Applied)).
      assert (EG : pstep (goto wd (Again (computed o now l err) (p_gen o))) (OGet true) = goto wd (Trying 1 v2 (computed o now l err) (p_gen o))).
      { cbn [pstep goto w_pc w_set]. rewrite S2. reflexivity. }
      rewrite EG. destruct (put_applied (goto wd (Trying 1 v2 (computed o now l err) (p_gen o))) 1 v2 _ _ o2 eq_refl) as [(o' & -> & E1 & E2)|(_ & N)]; [exists v2; exact S2| |].
      * split; [reflexivity|]. right. exists o'. split; [eexists; reflexivity | auto].
      * destruct (N S2).
Qed.

(* Marking a machine. *)
Lemma equal_iff : forall now op cur c l s, isMachineStatusEqual now (mkMS c op cur l) s = true <-> saysSame now op cur s.
Proof.
  intros now op cur c l s. unfold isMachineStatusEqual, saysSame. cbn [ms_op ms_cur].
  destruct ((lo_time op <? now - 1800) || (lo_time (ms_op s) <? now - 1800)) eqn:A; [split; [discriminate|]; rewrite orb_true_iff, !Z.ltb_lt in A; lia|].
  destruct ((cs_time cur <? now - 1800) || (cs_time (ms_cur s) <? now - 1800)) eqn:B; [split; [discriminate|]; rewrite orb_true_iff, !Z.ltb_lt in B; lia|].
  rewrite orb_false_iff, !Z.ltb_ge in A, B. rewrite !andb_true_iff, !String.eqb_eq, Bool.eqb_true_iff. tauto.
Qed.

Lemma marks_with : forall op cur m, marks op cur m (withStatus (mkMS (ms_conds (mo_status m)) op cur (ms_lks (mo_status m))) m).
Proof. intros. unfold marks. cbn. repeat split. Qed.

(* The round in which the loop ends, after rounds in which the write failed. *)
Lemma loop_end : forall cached op cur rounds,
  let '(l, e) := updateMachineStatus cached op cur rounds in
  exists pre post, rounds = pre ++ post /\
    Forall (fun r => exists m, mr_get r = Some m /\ ~ saysSame (mr_time r) op cur cached /\ (mr_stored r = false \/ mr_answer r = false)) pre /\
    (forall x, In x l -> exists r m, In r rounds /\ mr_get r = Some m /\ mr_stored r = true /\ marks op cur m x) /\
    match e with
    | MStill => post = []
    | MErr => exists r post', post = r :: post' /\ mr_get r = None
    | MSame => exists r post', post = r :: post' /\ mr_get r <> None /\ saysSame (mr_time r) op cur cached
    | MWritten => exists r post' m x, post = r :: post' /\ mr_get r = Some m /\ mr_stored r = true /\ last l x = x /\ In x l /\ marks op cur m x
    end.
Proof.
  intros cached op cur rounds. induction rounds as [|r rounds IH]; cbn [updateMachineStatus].
  - exists [], []. split; [reflexivity|]. split; [constructor|]. split; [intros x []|]. reflexivity.
  - destruct (mr_get r) as [m|] eqn:G.
    2:{ exists [], (r :: rounds). split; [reflexivity|]. split; [constructor|]. split; [intros x []|]. eauto. }
    cbv zeta. destruct (isMachineStatusEqual _ _ _) eqn:Q.
    { apply equal_iff in Q. exists [], (r :: rounds). split; [reflexivity|]. split; [constructor|]. split; [intros x []|]. exists r, rounds. split; [reflexivity|]. split; [congruence | exact Q]. }
    assert (NQ : ~ saysSame (mr_time r) op cur cached) by (intros K; apply equal_iff with (c := ms_conds (mo_status m)) (l := ms_lks (mo_status m)) in K; congruence).
    destruct (mr_stored r && mr_answer r) eqn:W.
    { apply andb_true_iff in W as (W1 & W2). rewrite W1. exists [], (r :: rounds). split; [reflexivity|]. split; [constructor|]. split.
      - intros x [<- | []]. exists r, m. split; [left; reflexivity|]. split; [exact G|]. split; [exact W1 | apply marks_with].
      - exists r, rounds, m. eexists. split; [reflexivity|]. split; [exact G|]. split; [exact W1|]. split; [reflexivity|]. split; [left; reflexivity | apply marks_with]. }
    destruct (updateMachineStatus cached op cur rounds) as [l e]. destruct IH as (pre & post & E & F & L & M). exists (r :: pre), post.
    split; [rewrite E; reflexivity|]. split; [constructor; [|exact F]; exists m; split; [exact G|]; split; [exact NQ|]; apply andb_false_iff; exact W|]. split.
    + intros x I. apply in_app_or in I as [I|I].
      * destruct (mr_stored r) eqn:S; [|destruct I]. destruct I as [<- | []]. exists r, m. split; [left; reflexivity|]. split; [exact G|]. split; [exact S | apply marks_with].
      * destruct (L x I) as (r' & m' & I' & X). exists r', m'. split; [right; exact I' | exact X].
    + destruct e; try exact M. destruct M as (r' & post' & m' & x & A & B & C & Z & I & K). exists r', post', m', x. split; [exact A|]. split; [exact B|]. split; [exact C|].
      split; [|split; [apply in_or_app; right; exact I | exact K]].
      destruct (mr_stored r); [|exact Z]. cbn [app]. destruct l as [|y l]; [destruct I | exact Z].
Qed.
