(** Proofs about the health check. *)
Require Import Coq.ZArith.ZArith Coq.Lists.List Coq.Strings.String Coq.Strings.Ascii Coq.Bool.Bool Coq.micromega.Lia.
Require Import Coq.micromega.ZifyBool.
From Verif Require Import MachModel HealthModel HealthSpec.
Import ListNotations.
Open Scope string_scope.
Open Scope list_scope.
Open Scope Z_scope.

Lemma sapp_nil_r : forall s, (s ++ "")%string = s.
Proof. induction s; cbn; congruence. Qed.

Lemma sapp_assoc : forall a b c : string, ((a ++ b) ++ c)%string = (a ++ (b ++ c))%string.
Proof. induction a; cbn; intros; congruence. Qed.

Lemma sapp_eq : forall a b c d : string, (a ++ b = c ++ d)%string ->
  exists l, (a = (c ++ l)%string /\ d = (l ++ b)%string) \/ (c = (a ++ l)%string /\ b = (l ++ d)%string).
Proof.
  induction a as [|x a IH]; intros b c d H.
  - exists c. right. auto.
  - destruct c as [|y c]; cbn in H.
    + exists (String x a). left. cbn. auto.
    + injection H as <- H. apply IH in H. destruct H as [l [[-> ->] | [-> ->]]]; exists l; [left | right]; auto.
Qed.

Lemma sapp_nil : forall a b : string, (a ++ b)%string = "" -> a = "" /\ b = "".
Proof. destruct a; cbn; intros b H; [auto | discriminate]. Qed.

Lemma nocomma_app : forall a b, nocomma (a ++ b)%string <-> nocomma a /\ nocomma b.
Proof.
  intros a b. split.
  - intros H. split; intros x y E; subst.
    + apply (H x (y ++ b)%string). rewrite !sapp_assoc. reflexivity.
    + apply (H (a ++ x)%string y). rewrite !sapp_assoc. reflexivity.
  - intros [A B] x y E. apply sapp_eq in E. destruct E as [l [[-> E] | [-> E]]].
    + destruct l as [|c l].
      * cbn in E. apply (B "" y). cbn. congruence.
      * cbn in E. injection E as <- _. apply (A x l). reflexivity.
    + apply (B l y). exact E.
Qed.

Lemma nocomma_comma : forall a b, ~ nocomma (a ++ String "," b)%string.
Proof. intros a b H. exact (H a b eq_refl). Qed.

Lemma element_flat : forall t l, nocomma l -> (element t l <-> t = l).
Proof.
  intros t l N. split.
  - intros [_ [p [q [-> [P Q]]]]].
    destruct P as [-> | [p' ->]]; [| exfalso; apply (N p' (t ++ q)%string); rewrite sapp_assoc; reflexivity].
    destruct Q as [-> | [q' ->]]; [| exfalso; apply (N t q'); reflexivity].
    cbn. rewrite sapp_nil_r. reflexivity.
  - intros ->. split; [exact N|]. exists "", "". cbn. rewrite sapp_nil_r. auto.
Qed.

Lemma element_cons : forall t a r, nocomma a -> (element t (a ++ String "," r)%string <-> t = a \/ element t r).
Proof.
  intros t a r N. split.
  - intros [T [p [q [E [P Q]]]]].
    destruct P as [-> | [p' ->]].
    + cbn in E. destruct Q as [-> | [q' ->]].
      * rewrite sapp_nil_r in E. subst t. exfalso. exact (nocomma_comma _ _ T).
      * apply sapp_eq in E. destruct E as [l [[-> E] | [-> E]]].
        -- destruct l as [|c l]; [left; symmetry; apply sapp_nil_r|]. cbn in E. injection E as <- _. exfalso. exact (nocomma_comma _ _ N).
        -- destruct l as [|c l]; [left; apply sapp_nil_r|]. cbn in E. injection E as <- _. exfalso. exact (nocomma_comma _ _ T).
    + right. rewrite sapp_assoc in E. apply sapp_eq in E. destruct E as [l [[-> E] | [-> E]]].
      * destruct l as [|c l].
        -- cbn in E. injection E as <-. split; [exact T|]. exists "", q. cbn. auto.
        -- cbn in E. injection E as <- _. exfalso. exact (nocomma_comma _ _ N).
      * destruct l as [|c l].
        -- cbn in E. injection E as E. subst r. split; [exact T|]. exists "", q. cbn. auto.
        -- cbn in E. injection E as <- E. split; [exact T|]. exists (l ++ ",")%string, q.
           rewrite sapp_assoc. cbn. split; [exact E|]. eauto.
  - intros [-> | [T [p [q [-> [P Q]]]]]].
    + split; [exact N|]. exists "", (String "," r). cbn. split; [reflexivity|]. split; [auto|]. right. exists r. reflexivity.
    + split; [exact T|]. exists (a ++ "," ++ p)%string, q. rewrite !sapp_assoc. cbn. split; [reflexivity|].
      split; [| exact Q]. right. destruct P as [-> | [p' ->]].
      * exists a. cbn. reflexivity.
      * exists (a ++ "," ++ p')%string. rewrite !sapp_assoc. reflexivity.
Qed.

Lemma split_spec : forall s acc t, nocomma acc -> (In t (splitComma acc s) <-> element t (acc ++ s)%string).
Proof.
  induction s as [|a s IH]; intros acc t N.
  - cbn [splitComma]. rewrite sapp_nil_r, element_flat by exact N. cbn. intuition.
  - cbn [splitComma]. destruct (Ascii.eqb a ",") eqn:E.
    + apply Ascii.eqb_eq in E. subst a. cbn [In]. rewrite element_cons by exact N.
      rewrite (IH "" t) by (intros x y H; destruct x; discriminate). cbn. intuition.
    + rewrite (IH (acc ++ String a "")%string t).
      * rewrite sapp_assoc. reflexivity.
      * apply nocomma_app. split; [exact N|]. intros x y H. destruct x as [|c x]; cbn in H.
        -- injection H as -> _. discriminate.
        -- injection H as _ H. symmetry in H. apply sapp_nil in H. destruct H; discriminate.
Qed.

Lemma healthy_iff : forall bad conds, isHealthy bad conds = true <-> no_problem bad conds.
Proof.
  intros bad conds. unfold no_problem.
  assert (G : forall c, (negb (String.eqb (nc_type c) "Ready" && negb (String.eqb (nc_status c) "True")) &&
           forallb (fun b => negb (String.eqb (nc_type c) b && negb (String.eqb (nc_status c) "False"))) (splitComma "" bad)) = true <->
           (nc_type c = "Ready" -> nc_status c = "True") /\ (element (nc_type c) bad -> nc_status c = "False")).
  { intros c. rewrite andb_true_iff, forallb_forall.
    pose proof (split_spec bad "" (nc_type c) ltac:(intros x y H; destruct x; discriminate)) as SP. cbn [append] in SP.
    rewrite <- SP. split; intros [A B]; split.
    - intros T. destruct (String.eqb_spec (nc_type c) "Ready"); [|contradiction].
      destruct (String.eqb_spec (nc_status c) "True"); [auto | cbn in A; discriminate].
    - intros I. apply B in I. rewrite String.eqb_refl in I.
      destruct (String.eqb_spec (nc_status c) "False"); [auto | cbn in I; discriminate].
    - destruct (String.eqb_spec (nc_type c) "Ready") as [T|]; [|reflexivity]. rewrite (A T). reflexivity.
    - intros b I. destruct (String.eqb_spec (nc_type c) b) as [<-|]; [|reflexivity]. rewrite (B I). reflexivity. }
  destruct conds as [|c0 r].
  - cbn. split; [discriminate | intros [H _]; congruence].
  - unfold isHealthy. rewrite forallb_forall. split.
    + intros H. split; [discriminate|]. split; intros c I; apply (G c); auto.
    + intros [_ [A B]] c I. apply G. split; auto.
Qed.

(** ** conditions *)
Lemma byType_in : forall t l c, byType t l = Some c -> In c l /\ nc_type c = t.
Proof.
  intros t l c H. apply find_some in H. destruct H as [I E]. rewrite <- in_rev in I. apply String.eqb_eq in E. auto.
Qed.

Lemma byType_none : forall t l, byType t l = None -> forall c, In c l -> nc_type c <> t.
Proof.
  intros t l H c I E. pose proof (find_none _ _ H c) as F. rewrite <- in_rev in F. specialize (F I). cbn in F.
  rewrite E, String.eqb_refl in F. discriminate.
Qed.

Lemma unique_type : forall l c d, NoDup (map nc_type l) -> In c l -> In d l -> nc_type c = nc_type d -> c = d.
Proof.
  induction l as [|x l IH]; cbn; intros c d N C D E; [contradiction|].
  inversion N as [|? ? NI N']; subst. destruct C as [<- | C], D as [<- | D]; auto.
  - exfalso. apply NI. rewrite E. apply in_map. exact D.
  - exfalso. apply NI. rewrite <- E. apply in_map. exact C.
Qed.

Lemma unchanged_agrees : forall a b, NoDup (map nc_type a) -> NoDup (map nc_type b) ->
  nodeConditionsHaveChanged a b = false -> agrees a b.
Proof.
  intros a b NA NB H. unfold nodeConditionsHaveChanged in H. apply orb_false_iff in H. destruct H as [H1 H2].
  assert (F : forall A (f : A -> bool) l, existsb f l = false -> forall x, In x l -> f x = false).
  { intros A f l E x I. destruct (f x) eqn:Fx; [|reflexivity].
    assert (existsb f l = true) by (apply existsb_exists; eauto). congruence. }
  intros t s. split; intros [c [I [T S]]].
  - pose proof (F _ _ _ H2 c I) as G. cbn in G. destruct (byType (nc_type c) b) as [d|] eqn:E; [|discriminate].
    apply byType_in in E. destruct E as [Id Td]. exists d. split; [exact Id|]. split; [congruence|].
    pose proof (F _ _ _ H1 d Id) as G1. cbn in G1. destruct (byType (nc_type d) a) as [o|] eqn:Eo; [|discriminate].
    apply byType_in in Eo. destruct Eo as [Io To]. apply negb_false_iff, String.eqb_eq in G1.
    assert (o = c) by (apply (unique_type a); congruence). subst o. congruence.
  - pose proof (F _ _ _ H1 c I) as G1. cbn in G1. destruct (byType (nc_type c) a) as [o|] eqn:Eo; [|discriminate].
    apply byType_in in Eo. destruct Eo as [Io To]. apply negb_false_iff, String.eqb_eq in G1.
    exists o. split; [exact Io|]. split; congruence.
Qed.

Lemma agrees_refl : forall a, agrees a a.
Proof. intros a t s. reflexivity. Qed.

(** ** phases *)
Ltac hcases :=
  repeat match goal with
  | |- context [String.eqb ?x ?y] => destruct (String.eqb_spec x y)
  | |- context [if isHealthy ?a ?b then _ else _] => destruct (isHealthy a b) eqn:?
  | |- context [if ?b then _ else _] => destruct b eqn:?
  end.

Lemma phases : forall sh creation health bad now node m s,
  reconcileMachineHealth sh creation health bad now node m = HWrite s ->
  phase_of s = phase m \/
  (phase_of s = "Running" /\ phase m <> "Running" /\ no_problem bad (ms_conds s) /\
     exists conds critical, node = NodeIs conds critical /\ (phase m = "Pending" -> critical = false)) \/
  (phase_of s = "Unknown" /\ phase m = "Running" /\
     (node = NodeMissing \/ (exists conds critical, node = NodeIs conds critical /\ ~ no_problem bad (ms_conds s)))) \/
  (phase_of s = "Failed" /\ phase m = "Pending" /\ cs_time (ms_cur (mo_status m)) + creation < now).
Proof.
  intros sh creation health bad now node m s. unfold reconcileMachineHealth.
  destruct node as [| | conds critical]; [discriminate | |].
  - destruct (negb (match ms_conds (mo_status m) with [] => true | _ => false end) && String.eqb (phase m) "Running") eqn:E.
    + apply andb_true_iff in E. destruct E as [_ E]. apply String.eqb_eq in E.
      cbn iota. intros H. injection H as <-. right. right. left. cbn. auto.
    + cbn iota. destruct (String.eqb_spec (phase m) "Pending") as [P|P]; cbn [orb].
      * destruct (0 <? _) eqn:T; [|discriminate]. intros H. injection H as <-. right. right. right. cbn. repeat split; auto. lia.
      * destruct (String.eqb (phase m) "Unknown"); [|discriminate]. destruct (0 <? _); discriminate.
  - set (ch := nodeConditionsHaveChanged (ms_conds (mo_status m)) conds).
    set (cs := if ch then conds else ms_conds (mo_status m)).
    destruct (isHealthy bad cs) eqn:HH.
    + destruct (negb (String.eqb (phase m) "Running") && negb (String.eqb (phase m) "Pending" && critical)) eqn:E.
      * apply andb_true_iff in E. destruct E as [E1 E2]. apply negb_true_iff in E1, E2. apply String.eqb_neq in E1.
        cbn iota. intros H. injection H as <-. right. left. cbn [phase_of ms_cur cs_phase ms_conds].
        split; [reflexivity|]. split; [exact E1|]. split; [apply healthy_iff; exact HH|].
        exists conds, critical. split; [reflexivity|]. intros P. rewrite P in E2. exact E2.
      * destruct ch eqn:CH; cbn iota.
        -- intros H. injection H as <-. left. reflexivity.
        -- destruct (String.eqb_spec (phase m) "Pending") as [P|P]; cbn [orb].
           ++ destruct (0 <? _) eqn:T; [|discriminate]. intros H. injection H as <-. right. right. right. cbn. repeat split; auto. lia.
           ++ destruct (String.eqb (phase m) "Unknown"); [|discriminate]. destruct (0 <? _); discriminate.
    + destruct (String.eqb_spec (phase m) "Running") as [R|R].
      * cbn iota. intros H. injection H as <-. right. right. left. cbn [phase_of ms_cur cs_phase ms_conds].
        split; [reflexivity|]. split; [exact R|]. right. exists conds, critical. split; [reflexivity|].
        intros NP. apply healthy_iff in NP. congruence.
      * destruct ch eqn:CH; cbn iota.
        -- intros H. injection H as <-. left. reflexivity.
        -- destruct (String.eqb_spec (phase m) "Pending") as [P|P]; cbn [orb].
           ++ destruct (0 <? _) eqn:T; [|discriminate]. intros H. injection H as <-. right. right. right. cbn. repeat split; auto. lia.
           ++ destruct (String.eqb (phase m) "Unknown"); [|discriminate]. destruct (0 <? _); discriminate.
Qed.

Lemma try_fail : forall sh creation health bad now node m d c,
  reconcileMachineHealth sh creation health bad now node m = HTryFail d c ->
  phase m = "Unknown" /\ cs_time (ms_cur (mo_status m)) + health < now /\
  (node = NodeMissing \/ exists conds critical, node = NodeIs conds critical /\ ~ no_problem bad (ms_conds c)).
Proof.
  intros sh creation health bad now node m d c. unfold reconcileMachineHealth.
  destruct node as [| | conds critical]; [discriminate | |].
  - destruct (negb (match ms_conds (mo_status m) with [] => true | _ => false end) && String.eqb (phase m) "Running") eqn:E;
      cbn iota; [discriminate|].
    destruct (String.eqb_spec (phase m) "Pending") as [P|P]; cbn [orb]; [destruct (0 <? _); discriminate|].
    destruct (String.eqb_spec (phase m) "Unknown") as [U|U]; [|discriminate].
    destruct (0 <? _) eqn:T; [|discriminate]. intros _. repeat split; auto. lia.
  - set (ch := nodeConditionsHaveChanged (ms_conds (mo_status m)) conds).
    set (cs := if ch then conds else ms_conds (mo_status m)).
    destruct (isHealthy bad cs) eqn:HH.
    + destruct (String.eqb_spec (phase m) "Running") as [R|R]; cbn [negb andb].
      * rewrite R. cbn. destruct ch; discriminate.
      * destruct (String.eqb_spec (phase m) "Pending") as [P|P]; cbn [andb negb].
        -- destruct critical; cbn [negb]; [|discriminate]. destruct ch; cbn iota; [discriminate|]. cbn [orb]. destruct (0 <? _); discriminate.
        -- discriminate.
    + destruct (String.eqb_spec (phase m) "Running") as [R|R]; [discriminate|].
      destruct ch eqn:CH; cbn iota; [discriminate|].
      destruct (String.eqb_spec (phase m) "Pending") as [P|P]; cbn [orb]; [destruct (0 <? _); discriminate|].
      destruct (String.eqb_spec (phase m) "Unknown") as [U|U]; [|discriminate].
      destruct (0 <? _) eqn:T; [|discriminate]. intros H. injection H as _ <-.
      split; [exact U|]. split; [lia|]. right. exists conds, critical. split; [reflexivity|]. cbn [ms_conds].
      intros NP. apply healthy_iff in NP. congruence.
Qed.

Lemma recorded : forall sh creation health bad now conds critical m,
  NoDup (map nc_type (ms_conds (mo_status m))) -> NoDup (map nc_type conds) ->
  match reconcileMachineHealth sh creation health bad now (NodeIs conds critical) m with
  | HWrite s | HTryFail _ s => agrees (ms_conds s) conds
  | _ => agrees (ms_conds (mo_status m)) conds
  end.
Proof.
  intros sh creation health bad now conds critical m NA NB. unfold reconcileMachineHealth.
  pose proof (unchanged_agrees (ms_conds (mo_status m)) conds NA NB) as U.
  destruct (nodeConditionsHaveChanged (ms_conds (mo_status m)) conds) eqn:CH.
  - destruct (isHealthy bad conds); hcases; cbn; apply agrees_refl.
  - specialize (U eq_refl). destruct (isHealthy bad (ms_conds (mo_status m))).
    + destruct (negb (String.eqb (phase m) "Running") && negb (String.eqb (phase m) "Pending" && critical)); cbn iota; [exact U|].
      destruct (String.eqb (phase m) "Pending" || String.eqb (phase m) "Unknown"); [|exact U].
      destruct (0 <? _); [|exact U]. destruct (String.eqb (phase m) "Pending"); exact U.
    + destruct (String.eqb (phase m) "Running"); cbn iota; [exact U|].
      destruct (String.eqb (phase m) "Pending" || String.eqb (phase m) "Unknown"); [|exact U].
      destruct (0 <? _); [|exact U]. destruct (String.eqb (phase m) "Pending"); exact U.
Qed.

Lemma agrees_no_problem : forall bad a b, agrees a b -> no_problem bad b -> no_problem bad a.
Proof.
  intros bad a b A [N [R B]]. split; [|split].
  - intros ->. destruct b as [|c b]; [congruence|].
    destruct (proj2 (A (nc_type c) (nc_status c)) (ex_intro _ c (conj (or_introl eq_refl) (conj eq_refl eq_refl)))) as [d [I _]]. contradiction.
  - intros c I T. destruct (proj1 (A (nc_type c) (nc_status c)) (ex_intro _ c (conj I (conj eq_refl eq_refl)))) as [d [Id [Td Sd]]].
    rewrite <- Sd. apply R; congruence.
  - intros c I T. destruct (proj1 (A (nc_type c) (nc_status c)) (ex_intro _ c (conj I (conj eq_refl eq_refl)))) as [d [Id [Td Sd]]].
    rewrite <- Sd. apply B; congruence.
Qed.

Lemma agrees_sym : forall a b, agrees a b -> agrees b a.
Proof. intros a b A t s. symmetry. apply A. Qed.

(** what must happen *)
Lemma must_run : forall sh creation health bad now conds critical m,
  NoDup (map nc_type (ms_conds (mo_status m))) -> NoDup (map nc_type conds) ->
  no_problem bad conds -> phase m <> "Running" -> (phase m = "Pending" -> critical = false) ->
  exists s, reconcileMachineHealth sh creation health bad now (NodeIs conds critical) m = HWrite s /\ phase_of s = "Running".
Proof.
  intros sh creation health bad now conds critical m NA NB NP R P. unfold reconcileMachineHealth.
  assert (H : isHealthy bad (if nodeConditionsHaveChanged (ms_conds (mo_status m)) conds then conds else ms_conds (mo_status m)) = true).
  { apply healthy_iff. destruct (nodeConditionsHaveChanged _ _) eqn:CH; [exact NP|].
    apply (agrees_no_problem bad _ conds); auto using unchanged_agrees. }
  rewrite H. destruct (String.eqb_spec (phase m) "Running"); [contradiction|]. cbn [negb andb].
  destruct (String.eqb_spec (phase m) "Pending") as [E|E].
  - rewrite (P E). cbn [andb negb]. eexists. split; reflexivity.
  - cbn [andb negb]. eexists. split; reflexivity.
Qed.

Lemma must_unknown : forall sh creation health bad now node m,
  NoDup (map nc_type (ms_conds (mo_status m))) ->
  phase m = "Running" -> ms_conds (mo_status m) <> [] ->
  (node = NodeMissing \/ exists conds critical, node = NodeIs conds critical /\ NoDup (map nc_type conds) /\ ~ no_problem bad conds) ->
  exists s, reconcileMachineHealth sh creation health bad now node m = HWrite s /\ phase_of s = "Unknown".
Proof.
  intros sh creation health bad now node m NA R NE [-> | [conds [critical [-> [NB NP]]]]]; unfold reconcileMachineHealth.
  - rewrite R. destruct (ms_conds (mo_status m)); [congruence|]. cbn. eexists. split; reflexivity.
  - assert (H : isHealthy bad (if nodeConditionsHaveChanged (ms_conds (mo_status m)) conds then conds else ms_conds (mo_status m)) = false).
    { apply not_true_iff_false. intros H. apply healthy_iff in H. destruct (nodeConditionsHaveChanged _ _) eqn:CH; [contradiction|].
      apply NP. apply (agrees_no_problem bad _ (ms_conds (mo_status m))); auto using unchanged_agrees, agrees_sym. }
    rewrite H, R. cbn. eexists. split; reflexivity.
Qed.

Lemma must_fail : forall sh creation health bad now m,
  (phase m = "Pending" -> cs_time (ms_cur (mo_status m)) + creation < now ->
    exists s, reconcileMachineHealth sh creation health bad now NodeMissing m = HWrite s /\ phase_of s = "Failed") /\
  (phase m = "Unknown" -> cs_time (ms_cur (mo_status m)) + health < now ->
    exists d c, reconcileMachineHealth sh creation health bad now NodeMissing m = HTryFail d c).
Proof.
  intros sh creation health bad now m. unfold reconcileMachineHealth.
  split; intros P T; rewrite P; cbn; rewrite andb_false_r.
  - destruct (0 <? _) eqn:E; [|lia]. eexists. split; reflexivity.
  - destruct (0 <? _) eqn:E; [|lia]. eexists. eexists. reflexivity.
Qed.

(** What a written status says. *)
Lemma said : forall sh creation health bad now node m s, let st := mo_status m in
  reconcileMachineHealth sh creation health bad now node m = HWrite s ->
  ms_lks s = ms_lks st /\
  (phase_of s = phase m -> ms_op s = ms_op st /\ ms_cur s = ms_cur st) /\
  (phase_of s <> phase m -> cs_timeoutActive (ms_cur s) = false /\ cs_time (ms_cur s) = now /\ lo_time (ms_op s) = now /\ lo_code (ms_op s) = "") /\
  (phase_of s <> phase m -> phase_of s = "Running" -> lo_state (ms_op s) = "Successful" /\
     ((lo_type (ms_op st) = "Create" /\ lo_state (ms_op st) <> "Successful" /\ lo_type (ms_op s) = "Create" /\
         lo_desc (ms_op s) = ("Machine " ++ mo_name m ++ " successfully joined the cluster")%string) \/
      (~ (lo_type (ms_op st) = "Create" /\ lo_state (ms_op st) <> "Successful") /\ lo_type (ms_op s) = "HealthCheck" /\
         lo_desc (ms_op s) = ("Machine " ++ mo_name m ++ " successfully re-joined the cluster")%string))) /\
  (phase_of s <> phase m -> phase_of s = "Unknown" -> lo_state (ms_op s) = "Processing" /\ lo_type (ms_op s) = "HealthCheck" /\
     lo_desc (ms_op s) = match node with
       | NodeMissing => ("Node object went missing. Machine " ++ mo_name m ++ " is unhealthy - changing MachinePhase to Unknown")%string
       | _ => ("Machine " ++ mo_name m ++ " is unhealthy - changing MachinePhase to Unknown. Node conditions: " ++ sh_conds sh (ms_conds s))%string
       end) /\
  (phase_of s <> phase m -> phase_of s = "Failed" -> lo_state (ms_op s) = "Failed" /\ lo_type (ms_op s) = lo_type (ms_op st) /\
     lo_desc (ms_op s) = ("Machine " ++ mo_name m ++ " failed to join the cluster in " ++ sh_dur sh creation ++ " minutes.")%string).
Proof.
  intros sh creation health bad now node m s st. unfold reconcileMachineHealth. fold st.
  assert (FIN : forall clone, ms_lks clone = ms_lks st -> ms_op clone = ms_op st -> ms_cur clone = ms_cur st ->
    forall (d : bool) r, (if d then HWrite clone else
     if String.eqb (phase m) "Pending" || String.eqb (phase m) "Unknown" then
      if 0 <? (now - (if String.eqb (phase m) "Pending" then creation else health)) - cs_time (ms_cur st) then
        if String.eqb (phase m) "Pending" then
          HWrite (mkMS (ms_conds clone)
                    (mkOp ("Machine " ++ mo_name m ++ " failed to join the cluster in " ++ sh_dur sh (if String.eqb (phase m) "Pending" then creation else health) ++ " minutes.")%string
                       "" now "Failed" (lo_type (ms_op st)))
                    (mkCur "Failed" false now) (ms_lks clone))
        else HTryFail r clone
      else HWait else HNone) = HWrite s ->
    (ms_lks s = ms_lks st /\ ms_op s = ms_op st /\ ms_cur s = ms_cur st) \/
    (phase m = "Pending" /\ s = mkMS (ms_conds clone)
       (mkOp ("Machine " ++ mo_name m ++ " failed to join the cluster in " ++ sh_dur sh creation ++ " minutes.")%string "" now "Failed" (lo_type (ms_op st)))
       (mkCur "Failed" false now) (ms_lks st))).
  { intros clone L O C d r H. destruct d; [injection H as <-; auto|].
    destruct (String.eqb_spec (phase m) "Pending") as [P|P]; cbn [orb] in H.
    - destruct (0 <? _); [|discriminate]. injection H as <-. rewrite L. auto.
    - destruct (String.eqb (phase m) "Unknown"); [|discriminate]. destruct (0 <? _); discriminate. }
  assert (KEEP : (ms_lks s = ms_lks st /\ ms_op s = ms_op st /\ ms_cur s = ms_cur st) -> phase_of s = phase m) by (intros (_ & _ & E); unfold phase_of, phase; now rewrite E).
  assert (DONE : forall cs, (ms_lks s = ms_lks st /\ ms_op s = ms_op st /\ ms_cur s = ms_cur st) \/
    (phase m = "Pending" /\ s = mkMS cs
       (mkOp ("Machine " ++ mo_name m ++ " failed to join the cluster in " ++ sh_dur sh creation ++ " minutes.")%string "" now "Failed" (lo_type (ms_op st)))
       (mkCur "Failed" false now) (ms_lks st)) -> ms_lks s = ms_lks st /\
  (phase_of s = phase m -> ms_op s = ms_op st /\ ms_cur s = ms_cur st) /\
  (phase_of s <> phase m -> cs_timeoutActive (ms_cur s) = false /\ cs_time (ms_cur s) = now /\ lo_time (ms_op s) = now /\ lo_code (ms_op s) = "") /\
  (phase_of s <> phase m -> phase_of s = "Running" -> False) /\ (phase_of s <> phase m -> phase_of s = "Unknown" -> False) /\
  (phase_of s <> phase m -> phase_of s = "Failed" -> lo_state (ms_op s) = "Failed" /\ lo_type (ms_op s) = lo_type (ms_op st) /\
     lo_desc (ms_op s) = ("Machine " ++ mo_name m ++ " failed to join the cluster in " ++ sh_dur sh creation ++ " minutes.")%string)).
  { intros cs [K|(P & ->)].
    - pose proof (KEEP K) as E. destruct K as (K1 & K2 & K3). split; [exact K1|]. split; [auto|]. repeat split; intros; contradiction.
    - cbn. rewrite P. repeat split; auto; try discriminate. }
  destruct node as [| | conds critical]; [discriminate | |].
  - destruct (negb (match ms_conds st with [] => true | _ => false end) && String.eqb (phase m) "Running") eqn:E.
    + apply andb_true_iff in E. destruct E as [_ E]. apply String.eqb_eq in E. cbn iota. intros H. injection H as <-. cbn. rewrite E. repeat split; auto; discriminate.
    + intros H. destruct (DONE _ (FIN st eq_refl eq_refl eq_refl false _ H)) as (A & B & C & D & F & G).
      repeat split; auto; try (apply B; assumption); try (apply C; assumption); try (apply G; assumption); exfalso; eauto.
  - set (ch := nodeConditionsHaveChanged (ms_conds st) conds). set (cs := if ch then conds else ms_conds st).
    destruct (isHealthy bad cs) eqn:HH.
    + destruct (negb (String.eqb (phase m) "Running") && negb (String.eqb (phase m) "Pending" && critical)) eqn:E.
      * apply andb_true_iff in E. destruct E as [E1 _]. apply negb_true_iff, String.eqb_neq in E1.
        cbn iota. intros H. injection H as <-. cbn [phase_of ms_cur ms_op cs_phase ms_lks cs_timeoutActive cs_time lo_time lo_code lo_state lo_type lo_desc].
        split; [reflexivity|]. split; [congruence|]. split; [auto|]. split; [|split; intros; discriminate].
        intros _ _. split; [reflexivity|]. fold st.
        destruct (String.eqb_spec (lo_type (ms_op st)) "Create") as [T|T], (String.eqb_spec (lo_state (ms_op st)) "Successful") as [S|S]; cbn [andb negb].
        -- right. tauto.
        -- left. auto.
        -- right. tauto.
        -- right. tauto.
      * intros H. destruct (DONE _ (FIN (mkMS cs (ms_op st) (ms_cur st) (ms_lks st)) eq_refl eq_refl eq_refl ch _ H)) as (A & B & C & D & F & G).
        repeat split; auto; try (apply B; assumption); try (apply C; assumption); try (apply G; assumption); exfalso; eauto.
    + destruct (String.eqb_spec (phase m) "Running") as [R|R].
      * cbn iota. intros H. injection H as <-. cbn. rewrite R. repeat split; auto; discriminate.
      * intros H. destruct (DONE _ (FIN (mkMS cs (ms_op st) (ms_cur st) (ms_lks st)) eq_refl eq_refl eq_refl ch _ H)) as (A & B & C & D & F & G).
        repeat split; auto; try (apply B; assumption); try (apply C; assumption); try (apply G; assumption); exfalso; eauto.
Qed.
