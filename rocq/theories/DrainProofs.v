(* Proofs for C39, C40, C41, C42 and C67. *)
Require Import List String Bool Arith ZArith Lia Permutation Sorted.
From Verif Require Import Sort AttModel AttSpec AttProofs DrainModel DrainSpec.
Import ListNotations.
Open Scope string_scope.
Open Scope list_scope.
Open Scope nat_scope.

(** * Selection *)

Lemma controller_spec : forall p k, getPodController p = Some k <-> Controls p k.
Proof.
  intros p k. unfold getPodController, Controls. induction (p_owners p) as [|[q c] r IH]; cbn [find].
  - split; [discriminate|]. intros [a [b [E _]]]. destruct a; discriminate.
  - destruct c; cbn [snd fst].
    + split.
      * intro H. injection H as ->. exists [], r. split; [reflexivity|]. intros x [].
      * intros [a [b [E N]]]. destruct a as [|x a]; cbn in E.
        -- now injection E as -> _.
        -- injection E as <- _. specialize (N (q, true) (or_introl eq_refl)). discriminate.
    + rewrite IH. split.
      * intros [a [b [-> N]]]. exists ((q, false) :: a), b. split; [reflexivity|].
        intros x [<-|I]; [reflexivity|now apply N].
      * intros [a [b [E N]]]. destruct a as [|x a]; cbn in E; [discriminate|].
        injection E as _ ->. exists a, b. split; [reflexivity|]. intros y I. apply N. now right.
Qed.

Lemma controller_none : forall p, getPodController p = None <-> forall r, In r (p_owners p) -> snd r = false.
Proof.
  intros p. unfold getPodController. destruct (find _ (p_owners p)) as [x|] eqn:F.
  - split; [discriminate|]. intro H. apply find_some in F. destruct F as [I T]. rewrite (H x I) in T. discriminate.
  - split; [|reflexivity]. intros _ r I. apply (find_none _ _ F r I).
Qed.

Lemma filters_ok : forall o p, fst (filters o p) = true /\ snd (filters o p) = false <->
  p_mirror p = false /\ ~ Controls p "DaemonSet" /\ snd (filters o p) = false.
Proof.
  intros o p. rewrite <- controller_spec. unfold filters, mirrorPodFilter, localStorageFilter, unreplicatedFilter, daemonsetFilter.
  cbn [fold_left]. destruct (p_mirror p), (hasLocalStorage p), (o_deleteLocal o), (p_finished p), (o_ignoreNoController o), (o_ignoreDaemonsets o);
  cbn; destruct (getPodController p) as [k|]; cbn; try (destruct (String.eqb_spec k "DaemonSet") as [->|NE]; cbn);
  repeat split; intros; try tauto; try (split; congruence); try congruence; try (destruct H; congruence); try intuition congruence.
Qed.

Lemma filters_bad : forall o p, snd (filters o p) = true <->
  ((exists v, In v (p_vols p) /\ v_emptyDir v = true) /\ o_deleteLocal o = false \/
   p_finished p = false /\ (forall r, In r (p_owners p) -> snd r = false) /\ o_ignoreNoController o = false \/
   Controls p "DaemonSet" /\ o_ignoreDaemonsets o = false).
Proof.
  intros o p. rewrite <- controller_spec, <- controller_none.
  assert (H : hasLocalStorage p = true <-> exists v, In v (p_vols p) /\ v_emptyDir v = true)
    by (unfold hasLocalStorage; now rewrite existsb_exists).
  rewrite <- H. unfold filters, mirrorPodFilter, localStorageFilter, unreplicatedFilter, daemonsetFilter.
  cbn [fold_left]. destruct (hasLocalStorage p), (o_deleteLocal o), (p_finished p), (o_ignoreNoController o), (o_ignoreDaemonsets o);
  cbn; destruct (getPodController p) as [k|]; cbn; try (destruct (String.eqb_spec k "DaemonSet") as [->|NE]; cbn);
  intuition congruence.
Qed.

Lemma choose_bad : forall o l, snd (choose o l) = true <-> exists p, In p l /\ Fatal o p.
Proof.
  intros o. induction l as [|p r IH]; cbn [choose].
  - split; [discriminate|]. intros [p [[] _]].
  - destruct (choose o r) as [ps bad] eqn:C. cbn [snd] in IH.
    destruct (String.eqb_spec (p_node p) (o_node o)) as [E|E]; cbn [negb].
    + destruct (filters o p) as [ok f] eqn:F. cbn [snd]. rewrite orb_true_iff, IH.
      assert (B : f = true <-> Fatal o p).
      { replace f with (snd (filters o p)) by now rewrite F. rewrite filters_bad. unfold Fatal. tauto. }
      rewrite B. split.
      * intros [H|[q [I H]]]; [exists p; split; [now left|assumption]|exists q; split; [now right|assumption]].
      * intros [q [[<-|I] H]]; [now left|right; exists q; tauto].
    + cbn [snd]. rewrite IH. split; intros [q [I H]].
      * exists q. split; [now right|assumption].
      * destruct I as [<-|I]; [destruct H; contradiction|]. exists q. tauto.
Qed.

Lemma choose_in : forall o l, snd (choose o l) = false ->
  (forall p, In p (fst (choose o l)) <-> In p l /\ Selected (o_node o) p) /\ Sub (fst (choose o l)) l.
Proof.
  intros o. induction l as [|p r IH]; cbn [choose].
  - intros _. split; [|constructor]. intro p. cbn. tauto.
  - destruct (choose o r) as [ps bad] eqn:C. cbn [fst snd] in IH.
    destruct (String.eqb_spec (p_node p) (o_node o)) as [E|E]; cbn [negb].
    + destruct (filters o p) as [ok f] eqn:F. cbn [fst snd]. intro B. apply orb_false_iff in B. destruct B as [-> ->].
      destruct (IH eq_refl) as [A S]. pose proof (filters_ok o p) as K. rewrite F in K. cbn [fst snd] in K.
      destruct ok.
      * split; [|now constructor]. intro q. cbn [In]. rewrite A. unfold Selected in *. split.
        -- intros [<-|[I H]]; [|tauto]. split; [now left|]. tauto.
        -- intros [[<-|I] H]; tauto.
      * split; [|now constructor]. intro q. rewrite A. cbn [In]. unfold Selected. split; [tauto|].
        intros [[<-|I] H]; [|tauto]. exfalso. assert (false = true) by tauto. discriminate.
    + cbn [fst snd]. intro B. destruct (IH B) as [A S]. split; [|now constructor].
      intro q. rewrite A. cbn [In]. split; [tauto|]. intros [[<-|I] H]; [destruct H; contradiction|tauto].
Qed.

Lemma getPods_spec : forall o l, (getPodsForDeletion o (Some l) = None <-> exists p, In p l /\ Fatal o p) /\
  forall ps, getPodsForDeletion o (Some l) = Some ps -> (forall p, In p ps <-> In p l /\ Selected (o_node o) p) /\ Sub ps l.
Proof.
  intros o l. unfold getPodsForDeletion. pose proof (choose_bad o l) as B. pose proof (choose_in o l) as C.
  destruct (choose o l) as [ps bad]. cbn [fst snd] in *. destruct bad.
  - split; [tauto|]. discriminate.
  - split; [split; [discriminate|rewrite <- B; discriminate]|]. intros qs H. injection H as <-. now apply C.
Qed.

Lemma mcm_not_fatal : forall o p, mcmOpts o -> ~ Fatal o p.
Proof. intros o p [A [B C]] [_ [[_ H]|[[_ [_ H]]|[_ H]]]]; congruence. Qed.

(** * The two groups *)

Lemma claim_spec : forall p, existsb volIsPvc (p_vols p) = true <-> UsesClaim p.
Proof.
  intro p. rewrite existsb_exists. unfold UsesClaim, volIsPvc. split.
  - intros [v [I H]]. destruct (v_claim v) as [c|] eqn:E; [|discriminate]. exists v, c. tauto.
  - intros [v [c [I H]]]. exists v. rewrite H. tauto.
Qed.

Lemma groups_spec : forall pods w wo, filterPodsWithPv pods = (w, wo) ->
  Permutation (w ++ wo) pods /\ Sub w pods /\ Sub wo pods /\
  (forall p, In p w -> UsesClaim p) /\ (forall p, In p wo -> ~ UsesClaim p).
Proof.
  induction pods as [|p r IH]; cbn [filterPodsWithPv]; intros w wo H.
  - injection H as <- <-. split; [constructor|]. split; [constructor|]. split; [constructor|]. split; intros p [].
  - destruct (filterPodsWithPv r) as [w' wo'] eqn:F. destruct (IH _ _ eq_refl) as [A [B [C [D E]]]].
    pose proof (claim_spec p) as K. destruct (existsb volIsPvc (p_vols p)); injection H as <- <-.
    + split; [cbn; now constructor|]. split; [now apply SubTake|]. split; [now apply SubSkip|]. split; [|assumption].
      intros q [<-|I]; [tauto|now apply D].
    + split; [rewrite <- Permutation_middle; now constructor|]. split; [now apply SubSkip|]. split; [now apply SubTake|].
      split; [assumption|]. intros q [<-|I]; [|now apply E]. intro U. apply K in U. discriminate.
Qed.

(** * The goroutine for pods with volumes *)

Lemma sends_app : forall a b, sends (a ++ b) = sends a ++ sends b.
Proof. intros. unfold sends. apply flat_map_app. Qed.
Lemma called_app : forall a b, called (a ++ b) = called a ++ called b.
Proof. intros. unfold called. apply flat_map_app. Qed.
Lemma sends_map : forall (f : Pod -> Res) l, map fst (sends (map (fun p => TSend p (f p)) l)) = l.
Proof.
  intros f. induction l as [|x l IH]; [reflexivity|]. cbn [map]. change (fst (x, f x) :: map fst (sends (map (fun p => TSend p (f p)) l)) = x :: l).
  now rewrite IH.
Qed.
Lemma called_map : forall (f : Pod -> Res) l, called (map (fun p => TSend p (f p)) l) = [].
Proof.
  intros f. induction l as [|x l IH]; [reflexivity|]. exact IH.
Qed.

Section Pv.
  Variables (o : Opts) (matches : string -> string -> bool) (info : list (string * list (string * string))) (env : nat -> Att).
  Notation int := (evictPodsWithPVInternal o matches info env).

  (* All the ways an attempt can go. *)
  Lemma internal_cases : forall attempt p rest retry k,
    (a_done (env k) = true /\ int attempt (p :: rest) retry k = mkIRes (retry ++ rest) true [TSend p RNil] (S k)) \/
    (exists t, t = [TCall attempt p (a_ans (env k))] /\ a_ans (env k) <> AOk /\ a_ans (env k) <> ANotFound /\
       int attempt (p :: rest) retry k = pre t (int attempt rest (retry ++ [p]) (S k))) \/
    (exists t, (t = [TCall attempt p (a_ans (env k)); TSend p RPdb] /\ a_ans (env k) = ATooMany \/
                t = [TCall attempt p ANotFound; TSend p RNil] \/
                (exists d, t = [TCall attempt p AOk; TDetach p d; TSend p RDetach] /\ (d = DErr \/ d = DTimeout)) \/
                (exists b, t = [TCall attempt p AOk; TDetach p DOk; TReattach p b; TSend p RNil])) /\
       int attempt (p :: rest) retry k = pre t (int attempt rest retry (S k))) \/
    (In NGone (a_polls (env k)) /\
     int attempt (p :: rest) retry k = mkIRes (retry ++ rest) true [TCall attempt p AOk; TDetach p DGone; TSend p RNil] (S k)).
  Proof.
    intros attempt p rest retry k. cbn [evictPodsWithPVInternal]. destruct (a_done (env k)) eqn:D; [left; split; reflexivity|].
    right. destruct (a_ans (env k)) eqn:A.
    - right. remember (match mget info (getPodKey p) with Some v => v | None => [] end) as vols.
      destruct (waitForDetach matches (o_node o) vols (a_polls (env k))) eqn:W.
      + left. eexists. split; [right; right; right; eexists; reflexivity|reflexivity].
      + right. split; [|reflexivity].
        unfold waitForDetach in W. destruct vols; [discriminate|]. destruct (String.eqb _ _); [discriminate|].
        revert W. induction (a_polls (env k)) as [|x r IH]; cbn [detachLoop]; intro W; [discriminate|].
        destruct x; [now left|discriminate|]. right. apply IH. destruct attached; [discriminate|].
        destruct (existsb _ _) in W; [assumption|discriminate].
      + left. eexists. split; [right; right; left; exists DErr; split; [reflexivity|now left]|reflexivity].
      + left. eexists. split; [right; right; left; exists DTimeout; split; [reflexivity|now right]|reflexivity].
    - destruct attempt.
      + destruct (getPdbForPod (a_pdbs (env k))) as [b|].
        * destruct (isMisconfiguredPdb b).
          -- right. left. eexists. split; [left; split; reflexivity|reflexivity].
          -- left. eexists. repeat split; try reflexivity; discriminate.
        * left. eexists. repeat split; try reflexivity; discriminate.
      + left. eexists. repeat split; try reflexivity; discriminate.
    - right. left. eexists. split; [right; left; reflexivity|reflexivity].
    - left. eexists. repeat split; try reflexivity; discriminate.
  Qed.

  Lemma internal_perm : forall attempt pods retry k, let r := int attempt pods retry k in
    Permutation (map fst (sends (i_trace r)) ++ i_remaining r) (retry ++ pods).
  Proof.
    intros attempt. induction pods as [|p rest IH]; intros retry k r; subst r.
    - cbn. now rewrite app_nil_r.
    - destruct (internal_cases attempt p rest retry k) as [[_ E]|[[t [T [_ [_ E]]]]|[[t [T E]]|[_ E]]]]; rewrite E.
      + cbn. apply Permutation_middle.
      + subst t. cbn [pre i_trace i_remaining]. rewrite sends_app. cbn [sends flat_map app].
        specialize (IH (retry ++ [p]) (S k)). cbv zeta in IH. rewrite IH, <- app_assoc. reflexivity.
      + cbn [pre i_trace i_remaining]. rewrite sends_app, map_app, <- app_assoc.
        specialize (IH retry (S k)). cbv zeta in IH. rewrite IH.
        assert (S : map fst (sends t) = [p]) by
          (destruct T as [[-> _]|[->|[[d [-> _]]|[b ->]]]]; reflexivity).
        rewrite S. cbn. apply Permutation_middle.
      + cbn. apply Permutation_middle.
  Qed.

  Lemma internal_calls : forall attempt pods retry k b p a,
    In (TCall b p a) (i_trace (int attempt pods retry k)) -> b = attempt /\ In p pods.
  Proof.
    intros attempt. induction pods as [|p rest IH]; intros retry k b q a.
    - intros [].
    - destruct (internal_cases attempt p rest retry k) as [[_ E]|[[t [T [_ [_ E]]]]|[[t [T E]]|[_ E]]]]; rewrite E.
      + cbn. intros [H|[]]. discriminate.
      + subst t. cbn [pre i_trace]. intro H. apply in_app_or in H. destruct H as [[H|[]]|H].
        * injection H as <- <- _. split; [reflexivity|now left].
        * destruct (IH _ _ _ _ _ H). split; [assumption|now right].
      + cbn [pre i_trace]. intro H. apply in_app_or in H. destruct H as [H|H].
        * assert (K : b = attempt /\ q = p).
          { destruct T as [[-> _]|[->|[[d [-> _]]|[c ->]]]]; cbn in H;
            repeat (destruct H as [H|H]; [try discriminate; injection H; intros; subst; tauto|]); destruct H. }
          destruct K as [-> ->]. split; [reflexivity|now left].
        * destruct (IH _ _ _ _ _ H). split; [assumption|now right].
      + cbn. intros [H|[H|[H|[]]]]; try discriminate. injection H as <- <- _. split; [reflexivity|now left].
  Qed.

  Lemma internal_fast : forall attempt pods retry k, i_fast (int attempt pods retry k) = true -> ~ Undisturbed env.
  Proof.
    intros attempt. induction pods as [|p rest IH]; intros retry k.
    - discriminate.
    - destruct (internal_cases attempt p rest retry k) as [[D E]|[[t [T [_ [_ E]]]]|[[t [T E]]|[D E]]]]; rewrite E; cbn [pre i_fast].
      + intros _ U. destruct (U k). congruence.
      + apply IH.
      + apply IH.
      + intros _ U. destruct (U k). contradiction.
  Qed.

  (* What a pod's good result rests on. *)
  Definition Good (t : list TEv) (p : Pod) : Prop :=
    exists b, In (TCall b p ANotFound) t \/ In (TCall b p AOk) t /\ In (TDetach p DOk) t.

  Lemma Good_app_l : forall t t' p, Good t p -> Good (t ++ t') p.
  Proof. intros t t' p [b [H|[H H']]]; exists b; rewrite !in_app_iff; tauto. Qed.
  Lemma Good_app_r : forall t t' p, Good t' p -> Good (t ++ t') p.
  Proof. intros t t' p [b [H|[H H']]]; exists b; rewrite !in_app_iff; tauto. Qed.

  Lemma internal_good : Undisturbed env -> forall attempt pods retry k p,
    let t := i_trace (int attempt pods retry k) in In (TSend p RNil) t -> Good t p.
  Proof.
    intros U attempt. induction pods as [|p rest IH]; intros retry k q.
    - intros t [].
    - cbv zeta. destruct (internal_cases attempt p rest retry k) as [[D E]|[[t [T [_ [_ E]]]]|[[t [T E]]|[D E]]]]; rewrite E.
      + destruct (U k). congruence.
      + subst t. cbn [pre i_trace]. intro H. apply in_app_or in H. destruct H as [[H|[]]|H]; [discriminate|].
        apply Good_app_r. now apply IH.
      + cbn [pre i_trace]. intro H. apply in_app_or in H. destruct H as [H|H]; [|apply Good_app_r; now apply IH].
        apply Good_app_l. destruct T as [[-> _]|[->|[[d [-> _]]|[c ->]]]]; cbn in H.
        * destruct H as [H|[H|[]]]; discriminate.
        * destruct H as [H|[H|[]]]; [discriminate|]. injection H as <-. exists attempt. left. now left.
        * destruct H as [H|[H|[H|[]]]]; discriminate.
        * destruct H as [H|[H|[H|[H|[]]]]]; try discriminate. injection H as <-. exists attempt. right.
          split; [now left|right; now left].
      + destruct (U k). contradiction.
  Qed.

  Lemma internal_called : Undisturbed env -> forall attempt pods retry k,
    called (i_trace (int attempt pods retry k)) = pods.
  Proof.
    intros U attempt. induction pods as [|p rest IH]; intros retry k.
    - reflexivity.
    - destruct (internal_cases attempt p rest retry k) as [[D E]|[[t [T [_ [_ E]]]]|[[t [T E]]|[D E]]]]; rewrite E.
      + destruct (U k). congruence.
      + subst t. cbn [pre i_trace]. rewrite called_app, IH. reflexivity.
      + cbn [pre i_trace]. rewrite called_app, IH.
        assert (S : called t = [p]) by (destruct T as [[-> _]|[->|[[d [-> _]]|[c ->]]]]; reflexivity).
        rewrite S. reflexivity.
      + destruct (U k). contradiction.
  Qed.

  (* In any case they are called in the order of the list. *)
  Lemma internal_order : forall attempt pods retry k, exists rest,
    pods = called (i_trace (int attempt pods retry k)) ++ rest.
  Proof.
    intros attempt. induction pods as [|p rest IH]; intros retry k.
    - exists []. reflexivity.
    - destruct (internal_cases attempt p rest retry k) as [[D E]|[[t [T [_ [_ E]]]]|[[t [T E]]|[D E]]]]; rewrite E.
      + exists (p :: rest). reflexivity.
      + destruct (IH (retry ++ [p]) (S k)) as [x X]. exists x. subst t. cbn [pre i_trace]. rewrite called_app, <- app_assoc, <- X. reflexivity.
      + destruct (IH retry (S k)) as [x X]. exists x. cbn [pre i_trace]. rewrite called_app, <- app_assoc, <- X.
        assert (S : called t = [p]) by (destruct T as [[-> _]|[->|[[d [-> _]]|[c ->]]]]; reflexivity).
        rewrite S. reflexivity.
      + exists rest. reflexivity.
  Qed.

  (* A successful call is followed by the wait. *)
  Definition Waits (t : list TEv) : Prop :=
    forall a b p c, t = a ++ TCall b p AOk :: c -> exists d c', c = TDetach p d :: c' /\
      (d = DOk -> exists x c'', c' = TReattach p x :: c'').
  Lemma Waits_nil : Waits [].
  Proof. intros a b p c H. destruct a; discriminate. Qed.
  Lemma Waits_app : forall t u, Waits t -> Waits u -> Waits (t ++ u).
  Proof.
    intros t u T U a b p c H.
    destruct (Nat.lt_ge_cases (List.length a) (List.length t)) as [L|L].
    - assert (E : exists c1, t = a ++ TCall b p AOk :: c1 /\ c = c1 ++ u).
      { revert t L T H. induction a as [|x a IH]; intros t L T H.
        - destruct t as [|y t]; [cbn in L; lia|]. cbn in H. injection H as -> H. exists t. split; [reflexivity|now symmetry].
        - destruct t as [|y t]; [cbn in L; lia|]. cbn in H. injection H as -> H. cbn in L.
          destruct (IH t) as [c1 [A B]]; try assumption; try lia.
          { intros a' b' p' c' E'. apply (T (x :: a') b' p' c'). cbn. now rewrite E'. }
          exists c1. split; [cbn; now rewrite <- A|assumption]. }
      destruct E as [c1 [E1 E2]]. destruct (T a b p c1 E1) as [d [c' [F G]]]. subst c1.
      exists d, (c' ++ u). split; [rewrite E2; reflexivity|]. intro D. destruct (G D) as [x [c'' ->]]. exists x, (c'' ++ u). reflexivity.
    - assert (E : exists a', a = t ++ a' /\ u = a' ++ TCall b p AOk :: c).
      { revert a L H. clear T. induction t as [|y t IH]; intros a L H.
        - exists a. split; [reflexivity|assumption].
        - destruct a as [|x a]; [cbn in L; lia|]. cbn in H. injection H as -> H. cbn in L.
          destruct (IH a) as [a' [A B]]; try lia; try assumption. exists a'. split; [cbn; now rewrite <- A|assumption]. }
      destruct E as [a' [_ E]]. apply (U a' b p c E).
  Qed.
  Lemma Waits_sends : forall (f : Pod -> Res) l, Waits (map (fun p => TSend p (f p)) l).
  Proof.
    intros f l a b p c H. assert (I : In (TCall b p AOk) (map (fun p => TSend p (f p)) l)) by (rewrite H; apply in_or_app; right; now left).
    apply in_map_iff in I. destruct I as [x [X _]]. discriminate.
  Qed.
  Lemma Waits_one : forall t, (forall b p, ~ In (TCall b p AOk) t) -> Waits t.
  Proof. intros t H a b p c E. exfalso. apply (H b p). rewrite E. apply in_or_app. right. now left. Qed.
  Lemma Waits_head : forall b p d u, (d = DOk -> exists x c, u = TReattach p x :: c) -> (forall b' q, ~ In (TCall b' q AOk) u) ->
    Waits (TCall b p AOk :: TDetach p d :: u).
  Proof.
    intros b p d u D N a b' q c H. destruct a as [|x a]; cbn in H.
    - injection H as -> -> <-. exists d, u. split; [reflexivity|assumption].
    - injection H as _ H. destruct a as [|y a]; cbn in H; [discriminate|]. injection H as _ H.
      exfalso. apply (N b' q). rewrite H. apply in_or_app. right. now left.
  Qed.

  Lemma internal_waits : forall attempt pods retry k, Waits (i_trace (int attempt pods retry k)).
  Proof.
    intros attempt. induction pods as [|p rest IH]; intros retry k.
    - apply Waits_nil.
    - destruct (internal_cases attempt p rest retry k) as [[D E]|[[t [T [N1 [N2 E]]]]|[[t [T E]]|[D E]]]]; rewrite E.
      + apply Waits_one. intros b q [H|[]]. discriminate.
      + subst t. cbn [pre i_trace]. apply Waits_app; [|apply IH]. apply Waits_one. intros b q [H|[]].
        injection H as _ _ H. contradiction.
      + cbn [pre i_trace]. apply Waits_app; [|apply IH]. destruct T as [[-> A]|[->|[[d [-> X]]|[c ->]]]].
        * apply Waits_one. rewrite A. intros b q [H|[H|[]]]; discriminate.
        * apply Waits_one. intros b q [H|[H|[]]]; discriminate.
        * apply Waits_head; [destruct X as [->| ->]; discriminate|]. intros b q [H|[]]; discriminate.
        * apply Waits_head; [intros _; eexists; eexists; reflexivity|]. intros b q [H|[H|[]]]; discriminate.
      + apply Waits_head; [discriminate|]. intros b q [H|[]]; discriminate.
  Qed.

  (** ** The rounds *)
  Notation rnds := (rounds o matches info env).

  Lemma rounds_S : forall m pods rem k, let r := int true pods [] k in
    rnds (S m) pods rem k =
      if i_fast r || match i_remaining r with [] => true | _ => false end then r
      else pre (i_trace r) (rnds m (i_remaining r) (i_remaining r) (i_next r)).
  Proof. reflexivity. Qed.

  Lemma rounds_perm : forall n pods k, let r := rnds n pods pods k in
    Permutation (map fst (sends (i_trace r)) ++ i_remaining r) pods.
  Proof.
    induction n as [|m IH]; intros pods k.
    - reflexivity.
    - cbv zeta. rewrite rounds_S. cbv zeta. pose proof (internal_perm true pods [] k) as P. cbv zeta in P. cbn [app] in P.
      destruct (_ || _); [exact P|]. cbn [pre i_trace i_remaining].
      rewrite sends_app, map_app, <- app_assoc.
      specialize (IH (i_remaining (int true pods [] k)) (i_next (int true pods [] k))). cbv zeta in IH. rewrite IH. exact P.
  Qed.
  Lemma rounds_irrelevant : forall m pods rem rem' k, rnds (S m) pods rem k = rnds (S m) pods rem' k.
  Proof. reflexivity. Qed.

  Lemma rounds_in : forall n pods k b p a, In (TCall b p a) (i_trace (rnds n pods pods k)) -> In p pods.
  Proof.
    induction n as [|m IH]; intros pods k b p a.
    - intros [].
    - rewrite rounds_S. cbv zeta. destruct (_ || _).
      + intro H. now apply internal_calls in H.
      + cbn [pre i_trace]. intro H. apply in_app_or in H. destruct H as [H|H]; [now apply internal_calls in H|].
        apply IH in H. pose proof (internal_perm true pods [] k) as P. cbv zeta in P. cbn [app] in P.
        eapply Permutation_in; [exact P|]. apply in_or_app. now right.
  Qed.

  Lemma rounds_fast : forall n pods rem k, i_fast (rnds n pods rem k) = true -> ~ Undisturbed env.
  Proof.
    induction n as [|m IH]; intros pods rem k.
    - discriminate.
    - rewrite rounds_S. cbv zeta. destruct (_ || _); [apply internal_fast|]. cbn [pre i_fast]. apply IH.
  Qed.

  Lemma rounds_good : Undisturbed env -> forall n pods rem k p, let t := i_trace (rnds n pods rem k) in In (TSend p RNil) t -> Good t p.
  Proof.
    intros U. induction n as [|m IH]; intros pods rem k p.
    - intros t [].
    - cbv zeta. rewrite rounds_S. cbv zeta. destruct (_ || _); [now apply internal_good|].
      cbn [pre i_trace]. intro H. apply in_app_or in H. destruct H as [H|H].
      + apply Good_app_l. now apply internal_good.
      + apply Good_app_r. now apply IH.
  Qed.

  Lemma rounds_called : Undisturbed env -> forall m pods rem k p, In p pods -> In p (called (i_trace (rnds (S m) pods rem k))).
  Proof.
    intros U m pods rem k p I. rewrite rounds_S. cbv zeta. destruct (_ || _).
    - now rewrite internal_called.
    - cbn [pre i_trace]. rewrite called_app, internal_called by assumption. apply in_or_app. now left.
  Qed.

  Lemma rounds_waits : forall n pods rem k, Waits (i_trace (rnds n pods rem k)).
  Proof.
    induction n as [|m IH]; intros pods rem k.
    - apply Waits_nil.
    - rewrite rounds_S. cbv zeta. destruct (_ || _); [apply internal_waits|]. cbn [pre i_trace].
      apply Waits_app; [apply internal_waits|apply IH].
  Qed.

  Lemma internal_count : forall attempt pods retry k, List.length (called (i_trace (int attempt pods retry k))) <= List.length pods.
  Proof.
    intros attempt pods retry k. destruct (internal_order attempt pods retry k) as [x X].
    rewrite X at 2. rewrite app_length. lia.
  Qed.
  Lemma internal_rem_len : forall attempt pods k, List.length (i_remaining (int attempt pods [] k)) <= List.length pods.
  Proof.
    intros. pose proof (internal_perm attempt pods [] k) as P. cbv zeta in P. apply Permutation_length in P.
    rewrite app_length in P. cbn [app] in P. lia.
  Qed.
  Lemma rounds_rem_len : forall n pods k, List.length (i_remaining (rnds n pods pods k)) <= List.length pods.
  Proof.
    intros. pose proof (rounds_perm n pods k) as P. cbv zeta in P. apply Permutation_length in P.
    rewrite app_length in P. lia.
  Qed.
  Lemma rounds_count : forall n pods k, List.length (called (i_trace (rnds n pods pods k))) <= n * List.length pods.
  Proof.
    induction n as [|m IH]; intros pods k.
    - cbn. lia.
    - rewrite rounds_S. cbv zeta. pose proof (internal_count true pods [] k) as A. destruct (_ || _); [cbn; lia|].
      cbn [pre i_trace]. rewrite called_app, app_length.
      specialize (IH (i_remaining (int true pods [] k)) (i_next (int true pods [] k))).
      pose proof (internal_rem_len true pods k) as B. cbn [Nat.mul].
      assert (m * List.length (i_remaining (int true pods [] k)) <= m * List.length pods) by (apply Nat.mul_le_mono_l; assumption). lia.
  Qed.

  Notation srt := (evictSorted o matches info env).

  Lemma retries_pos : (0 < o_retries o)%Z -> exists m, Z.to_nat (o_retries o) = S m.
  Proof. intro H. exists (pred (Z.to_nat (o_retries o))). lia. Qed.

  Lemma sorted_perm : forall attempt pods, (attempt = true -> (0 < o_retries o)%Z) ->
    Permutation (map fst (sends (srt attempt pods))) pods.
  Proof.
    intros attempt pods R. unfold evictSorted. destruct attempt.
    - destruct (retries_pos (R eq_refl)) as [m M]. rewrite M, (rounds_irrelevant m pods [] pods).
      pose proof (rounds_perm (S m) pods 0) as P. cbv zeta in P.
      remember (rnds (S m) pods pods 0) as r. destruct (negb (i_fast r) && _).
      + cbn [pre i_trace i_remaining]. rewrite !sends_app, !map_app, sends_map.
        pose proof (internal_perm false (i_remaining r) [] (i_next r)) as Q. cbv zeta in Q. cbn [app] in Q.
        rewrite <- app_assoc, Q. exact P.
      + rewrite sends_app, map_app, sends_map. exact P.
    - rewrite sends_app, map_app, sends_map. pose proof (internal_perm false pods [] 0) as Q. exact Q.
  Qed.

  Lemma sorted_calls : forall attempt pods b p a, In (TCall b p a) (srt attempt pods) -> In p pods.
  Proof.
    intros attempt pods b p a. unfold evictSorted. destruct attempt.
    - destruct (Z.to_nat (o_retries o)) as [|m].
      + cbn. intros [].
      + rewrite (rounds_irrelevant m pods [] pods). pose proof (rounds_in (S m) pods 0) as I.
        pose proof (rounds_perm (S m) pods 0) as P. cbv zeta in P.
        remember (rnds (S m) pods pods 0) as r. destruct (negb (i_fast r) && _).
        * cbn [pre i_trace i_remaining]. intro H. apply in_app_or in H. destruct H as [H|H].
          -- apply in_app_or in H. destruct H as [H|H]; [now apply I in H|]. apply internal_calls in H.
             destruct H as [_ H]. eapply Permutation_in; [exact P|]. apply in_or_app. now right.
          -- apply in_map_iff in H. destruct H as [x [X _]]. discriminate.
        * intro H. apply in_app_or in H. destruct H as [H|H]; [now apply I in H|].
          apply in_map_iff in H. destruct H as [x [X _]]. discriminate.
    - intro H. apply in_app_or in H. destruct H as [H|H]; [now apply internal_calls in H|].
      apply in_map_iff in H. destruct H as [x [X _]]. discriminate.
  Qed.

  Lemma sorted_good : Undisturbed env -> forall attempt pods p, In (TSend p RNil) (srt attempt pods) -> Good (srt attempt pods) p.
  Proof.
    intros U attempt pods p. unfold evictSorted. destruct attempt.
    - remember (rnds (Z.to_nat (o_retries o)) pods [] 0) as r.
      assert (F : i_fast r = false).
      { destruct (i_fast r) eqn:E; [|reflexivity]. subst r. apply rounds_fast in E. contradiction. }
      destruct (negb (i_fast r) && _).
      + cbn [pre i_trace i_remaining]. intro H. apply in_app_or in H. destruct H as [H|H].
        * apply Good_app_l. apply in_app_or in H. destruct H as [H|H].
          -- apply Good_app_l. subst r. now apply rounds_good.
          -- apply Good_app_r. now apply internal_good.
        * apply in_map_iff in H. destruct H as [x [X _]]. discriminate.
      + intro H. apply in_app_or in H. destruct H as [H|H].
        * apply Good_app_l. subst r. now apply rounds_good.
        * rewrite F in H. apply in_map_iff in H. destruct H as [x [X _]]. discriminate.
    - intro H. apply in_app_or in H. destruct H as [H|H].
      + apply Good_app_l. now apply internal_good.
      + apply in_map_iff in H. destruct H as [x [X _]]. discriminate.
  Qed.

  Lemma sorted_called : Undisturbed env -> forall attempt pods p, (attempt = true -> (0 < o_retries o)%Z) ->
    In p pods -> In p (called (srt attempt pods)).
  Proof.
    intros U attempt pods p R I. unfold evictSorted. destruct attempt.
    - destruct (retries_pos (R eq_refl)) as [m M]. rewrite M.
      pose proof (rounds_called U m pods [] 0 p I) as C. remember (rnds (S m) pods [] 0) as r.
      destruct (negb (i_fast r) && _); cbn [pre i_trace i_remaining]; rewrite !called_app, !in_app_iff; tauto.
    - rewrite called_app, internal_called by assumption. apply in_or_app. now left.
  Qed.

  Lemma sorted_waits : forall attempt pods, Waits (srt attempt pods).
  Proof.
    intros attempt pods. unfold evictSorted. destruct attempt.
    - remember (rnds (Z.to_nat (o_retries o)) pods [] 0) as r.
      assert (W : Waits (i_trace r)) by (subst r; apply rounds_waits).
      destruct (negb (i_fast r) && _); cbn [pre i_trace i_remaining].
      + apply Waits_app; [|apply (Waits_sends (fun _ => _))]. apply Waits_app; [assumption|apply internal_waits].
      + apply Waits_app; [assumption|apply (Waits_sends (fun _ => _))].
    - apply Waits_app; [apply internal_waits|apply (Waits_sends (fun _ => _))].
  Qed.

  Lemma sorted_count : forall attempt pods,
    List.length (called (srt attempt pods)) <= S (Z.to_nat (o_retries o)) * List.length pods.
  Proof.
    intros attempt pods. unfold evictSorted. destruct attempt.
    - destruct (Z.to_nat (o_retries o)) as [|m].
      + cbn. lia.
      + rewrite (rounds_irrelevant m pods [] pods). pose proof (rounds_count (S m) pods 0) as C.
        pose proof (rounds_rem_len (S m) pods 0) as L. remember (rnds (S m) pods pods 0) as r.
        destruct (negb (i_fast r) && _); cbn [pre i_trace i_remaining]; rewrite !called_app, (called_map (fun _ => _)), !app_length; cbn [List.length].
        * pose proof (internal_count false (i_remaining r) [] (i_next r)). lia.
        * lia.
    - rewrite called_app, (called_map (fun _ => _)), app_length. cbn [List.length].
      pose proof (internal_count false pods [] 0). lia.
  Qed.
End Pv.

(** * The goroutines for pods without volumes *)

Lemma noPv_S : forall o e p f i attempt, evictPodWithoutPVInternal o e p (S f) i attempt =
  (let attempt := if Z.leb (o_retries o) (Z.of_nat i) then false else attempt in
   let a := e_ans e i in let c := TCall attempt p a in
   match a with
   | AOk => if o_force o then Some [c; TSend p RNil]
            else let ok := waitForDelete (p_uid p) (e_polls e) in
                 Some [c; TGone p ok; TSend p (if ok then RNil else RWait)]
   | ANotFound => Some [c; TSend p RNil]
   | AOther => Some [c; TSend p RErr]
   | ATooMany =>
       if negb attempt then Some [c; TSend p RErr]
       else match getPdbForPod (e_pdbs e i) with
            | Some b => if isMisconfiguredPdb b then Some [c; TSend p RPdb]
                        else option_map (cons c) (evictPodWithoutPVInternal o e p f (S i) attempt)
            | None => option_map (cons c) (evictPodWithoutPVInternal o e p f (S i) attempt)
            end
   end).
Proof. reflexivity. Qed.

Lemma noPv_cases : forall o e p f i attempt,
  let at' := if Z.leb (o_retries o) (Z.of_nat i) then false else attempt in
  (exists t, evictPodWithoutPVInternal o e p (S f) i attempt = Some t /\
     ((exists r, t = [TCall at' p (e_ans e i); TSend p r] /\ r <> RNil) \/
      t = [TCall at' p ANotFound; TSend p RNil] \/
      (t = [TCall at' p AOk; TSend p RNil] /\ o_force o = true) \/
      (t = [TCall at' p AOk; TGone p true; TSend p RNil] /\ waitForDelete (p_uid p) (e_polls e) = true) \/
      t = [TCall at' p AOk; TGone p false; TSend p RWait])) \/
  (at' = true /\ e_ans e i = ATooMany /\
   evictPodWithoutPVInternal o e p (S f) i attempt = option_map (cons (TCall at' p ATooMany)) (evictPodWithoutPVInternal o e p f (S i) at')).
Proof.
  intros o e p f i attempt at'. rewrite noPv_S. cbv zeta. fold at'. destruct (e_ans e i) eqn:A.
  - left. destruct (o_force o) eqn:F.
    + eexists. split; [reflexivity|]. right. right. left. split; reflexivity.
    + destruct (waitForDelete (p_uid p) (e_polls e)) eqn:W.
      * eexists. split; [reflexivity|]. right. right. right. left. split; reflexivity.
      * eexists. split; [reflexivity|]. right. right. right. right. reflexivity.
  - destruct at' eqn:T; cbn [negb].
    + destruct (getPdbForPod (e_pdbs e i)) as [b|]; [destruct (isMisconfiguredPdb b)|].
      * left. eexists. split; [reflexivity|]. left. eexists. split; [reflexivity|discriminate].
      * right. repeat split.
      * right. repeat split.
    + left. eexists. split; [reflexivity|]. left. eexists. split; [reflexivity|discriminate].
  - left. eexists. split; [reflexivity|]. right. left. reflexivity.
  - left. eexists. split; [reflexivity|]. left. eexists. split; [reflexivity|discriminate].
Qed.

Lemma noPv_ends : forall o e p f i attempt, (o_retries o < Z.of_nat (i + S f))%Z ->
  exists t, evictPodWithoutPVInternal o e p (S f) i attempt = Some t.
Proof.
  intros o e p f. induction f as [|f IH]; intros i attempt L.
  - destruct (noPv_cases o e p 0 i attempt) as [[t [E _]]|[A _]]; [now exists t|].
    destruct (Z.leb_spec (o_retries o) (Z.of_nat i)); [discriminate|lia].
  - destruct (noPv_cases o e p (S f) i attempt) as [[t [E _]]|[A [_ E]]]; [now exists t|].
    destruct (IH (S i) (if Z.leb (o_retries o) (Z.of_nat i) then false else attempt)) as [t T]; [lia|].
    rewrite E, T. eexists. reflexivity.
Qed.

Lemma noPv_result : forall o e p f i attempt t, evictPodWithoutPVInternal o e p f i attempt = Some t ->
  (exists a r, t = a ++ [TSend p r] /\ sends a = []) /\
  (forall b q a, In (TCall b q a) t -> q = p) /\ called t <> [] /\
  (In (TSend p RNil) t -> exists b, In (TCall b p ANotFound) t \/
     In (TCall b p AOk) t /\ (o_force o = true \/ In (TGone p true) t /\ waitForDelete (p_uid p) (e_polls e) = true)).
Proof.
  intros o e p f. induction f as [|f IH]; intros i attempt t H; [discriminate|].
  destruct (noPv_cases o e p f i attempt) as [[t' [E C]]|[A [B E]]]; rewrite E in H.
  - injection H as ->. destruct C as [[r [-> N]]|[->|[[-> F]|[[-> W]| ->]]]].
    + split; [eexists [_], r; split; reflexivity|]. split; [intros b q a [X|[X|[]]]; [now injection X|discriminate]|].
      split; [discriminate|]. intros [X|[X|[]]]; [discriminate|]. injection X as X. congruence.
    + split; [eexists [_], RNil; split; reflexivity|]. split; [intros b q a [X|[X|[]]]; [now injection X|discriminate]|].
      split; [discriminate|]. intros _. eexists. left. now left.
    + split; [eexists [_], RNil; split; reflexivity|]. split; [intros b q a [X|[X|[]]]; [now injection X|discriminate]|].
      split; [discriminate|]. intros _. eexists. right. split; [now left|now left].
    + split; [eexists [_; _], RNil; split; reflexivity|]. split; [intros b q a [X|[X|[X|[]]]]; try discriminate; now injection X|].
      split; [discriminate|]. intros _. eexists. right. split; [now left|]. right. split; [right; now left|assumption].
    + split; [eexists [_; _], RWait; split; reflexivity|]. split; [intros b q a [X|[X|[X|[]]]]; try discriminate; now injection X|].
      split; [discriminate|]. intros [X|[X|[X|[]]]]; discriminate.
  - destruct (evictPodWithoutPVInternal o e p f (S i) _) as [t'|] eqn:G; [|discriminate]. cbn [option_map] in H. injection H as <-.
    destruct (IH _ _ _ G) as [[a [r [-> S]]] [I [J K]]].
    split; [eexists (_ :: a), r; split; [reflexivity|exact S]|].
    split; [intros b q a' [X|X]; [now injection X|now apply (I b q a')]|].
    split; [discriminate|]. intros [X|X]; [discriminate|]. destruct (K X) as [b [L|[L M]]]; exists b.
    + left. now right.
    + right. split; [now right|]. destruct M as [M|[M W]]; [now left|]. right. split; [now right|assumption].
Qed.

Lemma noPv_count : forall o e p f i attempt t, evictPodWithoutPVInternal o e p f i attempt = Some t ->
  List.length (called t) <= S (Z.to_nat (o_retries o) - i).
Proof.
  intros o e p f. induction f as [|f IH]; intros i attempt t H; [discriminate|].
  destruct (noPv_cases o e p f i attempt) as [[t' [E C]]|[A [B E]]]; rewrite E in H.
  - injection H as ->. destruct C as [[r [-> N]]|[->|[[-> F]|[[-> W]| ->]]]]; cbn; lia.
  - destruct (evictPodWithoutPVInternal o e p f (S i) _) as [t'|] eqn:G; [|discriminate]. cbn [option_map] in H. injection H as <-.
    apply IH in G. change (S (List.length (called t')) <= S (Z.to_nat (o_retries o) - i)).
    destruct (Z.leb_spec (o_retries o) (Z.of_nat i)); [discriminate|]. lia.
Qed.

Lemma withoutPv_ends : forall o envs fuel attempt pods i, (o_retries o < Z.of_nat fuel)%Z -> 0 < fuel ->
  exists ts, ended (evictPodsWithoutPv o envs fuel attempt pods i) = Some ts.
Proof.
  intros o envs fuel attempt. induction pods as [|p r IH]; intros i L P.
  - now exists [].
  - cbn [evictPodsWithoutPv ended]. destruct fuel as [|f]; [lia|].
    destruct (noPv_ends o (envs i) p f 0 attempt) as [t T]; [cbn; lia|]. rewrite T.
    destruct (IH (S i) L P) as [ts TS]. rewrite TS. eexists. reflexivity.
Qed.

(* The traces, one for each pod. *)
Lemma withoutPv_each : forall o envs fuel attempt pods i ts, ended (evictPodsWithoutPv o envs fuel attempt pods i) = Some ts ->
  Forall2 (fun p t => exists j, evictPodWithoutPVInternal o (envs j) p fuel 0 attempt = Some t) pods ts.
Proof.
  intros o envs fuel attempt. induction pods as [|p r IH]; intros i ts H; cbn [evictPodsWithoutPv ended] in H.
  - injection H as <-. constructor.
  - destruct (evictPodWithoutPVInternal o (envs i) p fuel 0 attempt) as [t|] eqn:E; [|discriminate].
    destruct (ended _) as [ts'|] eqn:F; [|discriminate]. injection H as <-. constructor; [now exists i|now apply IH in F].
Qed.

Lemma each_sends : forall o (envs : nat -> PEnv) fuel attempt pods ts,
  Forall2 (fun p t => exists j, evictPodWithoutPVInternal o (envs j) p fuel 0 attempt = Some t) pods ts ->
  map fst (sends (List.concat ts)) = pods.
Proof.
  intros o envs fuel attempt pods ts F. induction F as [|p t pods ts [j H] F IH]; [reflexivity|].
  cbn [List.concat]. rewrite sends_app, map_app, IH. apply noPv_result in H. destruct H as [[a [r [-> S]]] _].
  rewrite sends_app, S. reflexivity.
Qed.

(** * All together *)

Lemma sort_spec : forall pods l, sortPodsByPriority pods = Some l -> Permutation l pods.
Proof.
  intros pods l H. unfold sortPodsByPriority in H. destruct pods as [|p [|q r]].
  - injection H as <-. constructor.
  - injection H as <-. constructor. constructor.
  - remember (p :: q :: r) as m. destruct (forallb _ m); [|discriminate]. injection H as <-. symmetry. apply isort_perm.
Qed.
Lemma sort_none : forall pods, sortPodsByPriority pods = None <-> 2 <= List.length pods /\ exists p, In p pods /\ p_prio p = None.
Proof.
  intros pods. unfold sortPodsByPriority. destruct pods as [|p [|q r]].
  - split; [discriminate|]. cbn. lia.
  - split; [discriminate|]. cbn. lia.
  - remember (p :: q :: r) as l. assert (L : 2 <= List.length l) by (subst l; cbn; lia).
    destruct (forallb _ l) eqn:F.
    + split; [discriminate|]. intros [_ [x [I X]]]. rewrite forallb_forall in F. specialize (F x I). rewrite X in F. discriminate.
    + split; [|reflexivity]. intros _. split; [assumption|].
      assert (N : ~ forall x, In x l -> p_prio x <> None).
      { intro H. assert (T : forallb (fun p => match p_prio p with Some _ => true | None => false end) l = true).
        { apply forallb_forall. intros x I. specialize (H x I). destruct (p_prio x); [reflexivity|congruence]. }
        congruence. }
      clear F Heql L. induction l as [|x l IH].
      * exfalso. apply N. intros x [].
      * destruct (p_prio x) eqn:X.
        -- destruct IH as [y [I Y]].
           { intro H. apply N. intros y [<-|I]; [congruence|now apply H]. }
           exists y. split; [now right|assumption].
        -- exists x. split; [now left|assumption].
Qed.

Lemma prioLeb_total : forall a b, prioLeb a b = true \/ prioLeb b a = true.
Proof.
  intros a b. unfold prioLeb. destruct (p_prio a) as [x|], (p_prio b) as [y|]; try tauto.
  destruct (Z.leb_spec y x); [now left|]. right. apply Z.leb_le. lia.
Qed.

Section All.
  Variables (o : Opts) (matches : string -> string -> bool) (ans : string -> string -> nat -> PvcAns) (drv : DriverAns)
            (env : nat -> Att) (envs : nat -> PEnv) (fuel : nat).
  Notation gor := (goroutines o matches ans drv env envs fuel).

  (* The goroutines of a drain that started well. *)
  Lemma goroutines_some : forall attempt pods gs, gor attempt pods = Some gs ->
    (o_force o = true /\ gs = evictPodsWithoutPv o envs fuel attempt pods 0) \/
    (exists w wo l, o_force o = false /\ filterPodsWithPv pods = (w, wo) /\ Permutation l w /\ sortPodsByPriority w = Some l /\
       gs = Some (evictSorted o matches (getPodVolumeInfos ans drv l) env attempt l) :: evictPodsWithoutPv o envs fuel attempt wo 0).
  Proof.
    intros attempt pods gs H. unfold goroutines in H. destruct (o_force o); [left; injection H as <-; tauto|].
    right. destruct (filterPodsWithPv pods) as [w wo]. unfold evictPodsWithPv in H.
    destruct (sortPodsByPriority w) as [l|] eqn:S; [|discriminate]. injection H as <-.
    exists w, wo, l. repeat split; try assumption. now apply sort_spec.
  Qed.

  Lemma all_end : forall attempt pods gs, gor attempt pods = Some gs -> (o_retries o < Z.of_nat fuel)%Z -> 0 < fuel ->
    exists ts, ended gs = Some ts.
  Proof.
    intros attempt pods gs H L P. destruct (goroutines_some _ _ _ H) as [[_ ->]|[w [wo [l [_ [_ [_ [_ ->]]]]]]]].
    - now apply withoutPv_ends.
    - cbn [ended]. destruct (withoutPv_ends o envs fuel attempt wo 0 L P) as [ts T]. rewrite T. eexists. reflexivity.
  Qed.

  Lemma one_result : forall attempt pods gs ts, gor attempt pods = Some gs -> ended gs = Some ts ->
    (attempt = true -> o_force o = false -> (0 < o_retries o)%Z) ->
    Permutation (map fst (sends (List.concat ts))) pods.
  Proof.
    intros attempt pods gs ts H E R. destruct (goroutines_some _ _ _ H) as [[_ ->]|[w [wo [l [F [G [PL [_ ->]]]]]]]].
    - apply withoutPv_each in E. rewrite (each_sends _ _ _ _ _ _ E). reflexivity.
    - cbn [ended] in E. destruct (ended (evictPodsWithoutPv o envs fuel attempt wo 0)) as [ts'|] eqn:T; [|discriminate].
      injection E as <-. cbn [List.concat]. rewrite sends_app, map_app.
      apply withoutPv_each in T. rewrite (each_sends _ _ _ _ _ _ T).
      rewrite sorted_perm by (intro X; apply (R X F)). rewrite PL. now apply groups_spec.
  Qed.

  Lemma collect_returns : forall (l : list (Pod * Res)) n, List.length l = n ->
    collect n l = Returned (filter (fun r => match r with RNil => false | _ => true end) (map snd l)).
  Proof.
    intros l n <-. unfold collect. rewrite Nat.ltb_irrefl. reflexivity.
  Qed.

  (* Calls are made only for the pods given. *)
  Lemma calls_only : forall attempt pods gs ts b p a, gor attempt pods = Some gs -> ended gs = Some ts ->
    In (TCall b p a) (List.concat ts) -> In p pods.
  Proof.
    intros attempt pods gs ts b p a H E I.
    assert (NP : forall l ts', Forall2 (fun p t => exists j, evictPodWithoutPVInternal o (envs j) p fuel 0 attempt = Some t) l ts' ->
      In (TCall b p a) (List.concat ts') -> In p l).
    { intros l ts' F. induction F as [|q t l ts' [j J] F IH]; [intros []|]. cbn [List.concat]. intro X. apply in_app_or in X.
      destruct X as [X|X]; [|right; now apply IH]. apply noPv_result in J. destruct J as [_ [J _]]. left. symmetry. now apply (J b p a). }
    destruct (goroutines_some _ _ _ H) as [[_ ->]|[w [wo [l [F [G [PL [_ ->]]]]]]]].
    - apply withoutPv_each in E. now apply (NP _ _ E).
    - cbn [ended] in E. destruct (ended (evictPodsWithoutPv o envs fuel attempt wo 0)) as [ts'|] eqn:T; [|discriminate].
      injection E as <-. cbn [List.concat] in I. apply withoutPv_each in T.
      destruct (groups_spec _ _ _ G) as [PG _]. apply in_app_or in I. destruct I as [I|I].
      + apply sorted_calls in I. eapply Permutation_in; [exact PG|]. apply in_or_app. left. eapply Permutation_in; [exact PL|exact I].
      + eapply Permutation_in; [exact PG|]. apply in_or_app. right. now apply (NP _ _ T).
  Qed.

  Lemma calls_all : forall attempt pods gs ts p, Undisturbed env -> gor attempt pods = Some gs -> ended gs = Some ts ->
    (attempt = true -> o_force o = false -> (0 < o_retries o)%Z) ->
    In p pods -> In p (called (List.concat ts)).
  Proof.
    intros attempt pods gs ts p U H E R I.
    assert (NP : forall l ts', Forall2 (fun p t => exists j, evictPodWithoutPVInternal o (envs j) p fuel 0 attempt = Some t) l ts' ->
      In p l -> In p (called (List.concat ts'))).
    { intros l ts' F. induction F as [|q t l ts' [j J] F IH]; [intros []|]. cbn [List.concat]. rewrite called_app. intro X. apply in_or_app.
      destruct X as [<-|X]; [|right; now apply IH]. left. apply noPv_result in J. destruct J as [_ [J [N _]]].
      unfold called in *. destruct (flat_map _ t) as [|x r] eqn:Q; [congruence|].
      assert (K : In x (flat_map (fun x => match x with TCall _ p _ => [p] | _ => [] end) t)) by (rewrite Q; now left).
      apply in_flat_map in K. destruct K as [y [Y1 Y2]]. destruct y as [b0 p0 a0|? ?|? ?|? ?|? ?]; cbn in Y2; try contradiction.
      destruct Y2 as [<-|[]]. apply J in Y1. subst. now left. }
    destruct (goroutines_some _ _ _ H) as [[_ ->]|[w [wo [l [F [G [PL [_ ->]]]]]]]].
    - apply withoutPv_each in E. now apply (NP _ _ E).
    - cbn [ended] in E. destruct (ended (evictPodsWithoutPv o envs fuel attempt wo 0)) as [ts'|] eqn:T; [|discriminate].
      injection E as <-. cbn [List.concat]. rewrite called_app. apply withoutPv_each in T.
      destruct (groups_spec _ _ _ G) as [PG _]. symmetry in PG. apply (Permutation_in _ PG) in I. apply in_app_or in I. apply in_or_app.
      destruct I as [I|I]; [|right; now apply (NP _ _ T)]. left. apply sorted_called; [assumption|auto|].
      symmetry in PL. apply (Permutation_in _ PL I).
  Qed.

  (* A good result for a pod. *)
  Lemma nil_means : forall attempt pods gs ts p, Undisturbed env -> gor attempt pods = Some gs -> ended gs = Some ts ->
    In (TSend p RNil) (List.concat ts) -> o_force o = false ->
    let t := List.concat ts in
    exists b, In (TCall b p ANotFound) t \/
      (In (TCall b p AOk) t /\ In (TDetach p DOk) t) \/
      (In (TCall b p AOk) t /\ In (TGone p true) t /\ exists j, waitForDelete (p_uid p) (e_polls (envs j)) = true).
  Proof.
    intros attempt pods gs ts p U H E I F t. unfold t. clear t.
    destruct (goroutines_some _ _ _ H) as [[F' _]|[w [wo [l [_ [G [PL [_ ->]]]]]]]]; [congruence|].
    cbn [ended] in E. destruct (ended (evictPodsWithoutPv o envs fuel attempt wo 0)) as [ts'|] eqn:T; [|discriminate].
    injection E as <-. cbn [List.concat] in *. apply withoutPv_each in T. apply in_app_or in I. destruct I as [I|I].
    - apply sorted_good in I; [|assumption]. destruct I as [b [I|[I J]]]; exists b.
      + left. apply in_or_app. now left.
      + right. left. split; apply in_or_app; now left.
    - assert (K : exists b, In (TCall b p ANotFound) (List.concat ts') \/
        In (TCall b p AOk) (List.concat ts') /\ In (TGone p true) (List.concat ts') /\ exists j, waitForDelete (p_uid p) (e_polls (envs j)) = true).
      { clear G H. induction T as [|q t' l' ts' [j J] T IH]; [destruct I|]. cbn [List.concat] in *. apply in_app_or in I. destruct I as [I|I].
        - apply noPv_result in J. destruct J as [[a [r [E S]]] [_ [_ J]]].
          assert (p = q).
          { rewrite E in I. apply in_app_or in I. destruct I as [I|[I|[]]]; [|now injection I].
            assert (In (p, RNil) (sends a)) as X by (unfold sends; apply in_flat_map; eexists; split; [exact I|now left]).
            rewrite S in X. destruct X. }
          subst q. destruct (J I) as [b [L|[L M]]]; exists b.
          + left. apply in_or_app. now left.
          + right. destruct M as [M|[M W]]; [congruence|]. split; [apply in_or_app; now left|]. split; [apply in_or_app; now left|now exists j].
        - destruct (IH I) as [b K]. exists b. rewrite !in_app_iff. tauto. }
      destruct K as [b [K|[K [K' W]]]]; exists b.
      + left. apply in_or_app. now right.
      + right. right. split; [apply in_or_app; now right|]. split; [apply in_or_app; now right|assumption].
  Qed.
End All.

Lemma waitForDelete_spec : forall uid polls, waitForDelete uid polls = true <->
  exists a g b, polls = a ++ g :: b /\ (forall x, In x a -> g_err x = None /\ (g_obj x = None \/ g_obj x = Some uid)) /\
    (g_err g = Some true \/ exists u, g_obj g = Some u /\ u <> uid).
Proof.
  intros uid. induction polls as [|g r IH]; cbn [waitForDelete].
  - split; [discriminate|]. intros [a [g [b [E _]]]]. destruct a; discriminate.
  - destruct ((match g_err g with Some b => b | None => false end) || (match g_obj g with Some u => negb (String.eqb u uid) | None => false end)) eqn:C.
    + split; [|reflexivity]. intros _. exists [], g, r. split; [reflexivity|]. split; [intros x []|].
      apply orb_true_iff in C. destruct C as [C|C].
      * left. destruct (g_err g) as [[]|]; [reflexivity|discriminate|discriminate].
      * right. destruct (g_obj g) as [u|]; [|discriminate]. exists u. split; [reflexivity|].
        apply negb_true_iff, String.eqb_neq in C. assumption.
    + apply orb_false_iff in C. destruct C as [C1 C2]. destruct (g_err g) as [e|] eqn:Eg.
      * subst e. split; [discriminate|]. intros [a [g' [b [E [A B]]]]]. destruct a as [|x a]; cbn in E.
        -- injection E as <- <-. destruct B as [B|[u [B N]]]; [congruence|]. rewrite B in C2. apply negb_false_iff, String.eqb_eq in C2. contradiction.
        -- injection E as <- _. destruct (A g (or_introl eq_refl)). congruence.
      * rewrite IH. split; intros [a [g' [b [E [A B]]]]].
        -- exists (g :: a), g', b. split; [cbn; now rewrite E|]. split; [|assumption]. intros x [<-|I]; [|now apply A].
           split; [assumption|]. destruct (g_obj g) as [u|]; [|now left]. right. apply negb_false_iff, String.eqb_eq in C2. now subst.
        -- destruct a as [|x a]; cbn in E.
           ++ injection E as <- <-. destruct B as [B|[u [B N]]]; [congruence|]. rewrite B in C2. apply negb_false_iff, String.eqb_eq in C2. contradiction.
           ++ injection E as _ ->. exists a, g', b. split; [reflexivity|]. split; [|assumption]. intros y I. apply A. now right.
Qed.

Lemma detachLoop_spec : forall matches ids polls, detachLoop matches ids polls = DOk <->
  exists a att b, polls = a ++ NVols att :: b /\
    (forall x, In x a -> exists att' id v, x = NVols att' /\ In id ids /\ In v att' /\ matches id v = true) /\
    (forall id v, In id ids -> In v att -> matches id v = false).
Proof.
  intros matches ids. induction polls as [|x r IH]; cbn [detachLoop].
  - split; [discriminate|]. intros [a [att [b [E _]]]]. destruct a; discriminate.
  - destruct x as [| |att].
    + split; [discriminate|]. intros [a [att [b [E [A B]]]]]. destruct a as [|y a]; cbn in E; [discriminate|]. injection E as <- _.
      destruct (A NGone (or_introl eq_refl)) as [q [id [v [X _]]]]. discriminate.
    + split; [discriminate|]. intros [a [att [b [E [A B]]]]]. destruct a as [|y a]; cbn in E; [discriminate|]. injection E as <- _.
      destruct (A NErr (or_introl eq_refl)) as [q [id [v [X _]]]]. discriminate.
    + assert (EQ : (match att with [] => DOk | _ => if existsb (fun id => existsb (matches id) att) ids then detachLoop matches ids r else DOk end)
                   = if existsb (fun id => existsb (matches id) att) ids then detachLoop matches ids r else DOk).
      { destruct att; [|reflexivity]. replace (existsb (fun id => existsb (matches id) []) ids) with false; [reflexivity|].
        clear. induction ids as [|y l IHl]; [reflexivity|exact IHl]. }
      rewrite EQ. destruct (existsb (fun id => existsb (matches id) att) ids) eqn:X.
      * apply existsb_exists in X. destruct X as [id [I X]]. apply existsb_exists in X. destruct X as [v [J X]].
        rewrite IH. split; intros [a [att' [b [E [A B]]]]].
        -- exists (NVols att :: a), att', b. split; [cbn; now rewrite E|]. split; [|assumption].
           intros y [<-|K]; [|now apply A]. exists att, id, v. repeat split; assumption.
        -- destruct a as [|y a]; cbn in E.
           ++ injection E as <- <-. rewrite (B id v I J) in X. discriminate.
           ++ injection E as _ ->. exists a, att', b. split; [reflexivity|]. split; [|assumption]. intros z K. apply A. now right.
      * split; [|reflexivity]. intros _. exists [], att, r. split; [reflexivity|]. split; [intros y []|].
        intros id v I J. destruct (matches id v) eqn:M; [|reflexivity]. exfalso.
        assert (existsb (fun id => existsb (matches id) att) ids = true); [|congruence].
        apply existsb_exists. exists id. split; [assumption|]. apply existsb_exists. now exists v.
Qed.

(** * Shared volumes *)

Lemma mget_mset : forall A (m : list (string * A)) k v k', mget (mset m k v) k' = if String.eqb k' k then Some v else mget m k'.
Proof.
  intros A. induction m as [|[q x] r IH]; intros k v k'; cbn [mset mget].
  - destruct (String.eqb k' k); reflexivity.
  - destruct (String.eqb_spec k q) as [->|N]; cbn [mget].
    + destruct (String.eqb k' q); reflexivity.
    + rewrite IH. destruct (String.eqb_spec k' q) as [->|N']; [|reflexivity].
      destruct (String.eqb_spec q k); [congruence|reflexivity].
Qed.

Definition rep (n : nat) : option bool := match n with 0 => None | 1 => Some false | _ => Some true end.

Lemma markShared_spec : forall vols m f, (forall v, mget m v = rep (f v)) ->
  forall v, mget (markShared m vols) v = rep (f v + count_occ string_dec vols v).
Proof.
  induction vols as [|x r IH]; intros m f H v; cbn [markShared fold_left].
  - cbn. now rewrite Nat.add_0_r.
  - change (fold_left _ r ?q) with (markShared q r).
    rewrite (IH _ (fun w => if string_dec w x then S (f w) else f w)).
    + cbn [count_occ]. destruct (string_dec x v), (string_dec v x); try congruence; f_equal; lia.
    + intro w. rewrite H. destruct (string_dec w x) as [->|N].
      * destruct (f x) as [|[|n]]; cbn [rep]; rewrite mget_mset, String.eqb_refl; reflexivity.
      * destruct (rep (f x)); rewrite mget_mset; (destruct (String.eqb_spec w x); [congruence|apply H]).
Qed.

Lemma shared_spec : forall pvMap v,
  mget (fold_left (fun m e => markShared m (snd e)) pvMap []) v = rep (mentions pvMap v).
Proof.
  assert (G : forall pvMap m f, (forall v, mget m v = rep (f v)) -> forall v,
    mget (fold_left (fun m e => markShared m (snd e)) pvMap m) v = rep (f v + mentions pvMap v)).
  { induction pvMap as [|[k l] r IH]; intros m f H v; cbn [fold_left].
    - unfold mentions. cbn. now rewrite Nat.add_0_r.
    - rewrite (IH _ (fun w => f w + count_occ string_dec l w)).
      + unfold mentions. cbn [map List.concat snd]. rewrite count_occ_app. f_equal. lia.
      + intro w. now apply markShared_spec. }
  intros pvMap v. rewrite (G pvMap [] (fun _ => 0)); [reflexivity|]. intro w. reflexivity.
Qed.

Lemma mget_map : forall A B (f : string -> A -> B) (m : list (string * A)) k,
  mget (map (fun e => (fst e, f (fst e) (snd e))) m) k = match mget m k with Some v => Some (f k v) | None => None end.
Proof.
  intros A B f. induction m as [|[q x] r IH]; intros k; cbn [map mget fst snd]; [reflexivity|].
  destruct (String.eqb_spec k q) as [->|N]; [reflexivity|apply IH].
Qed.

Lemma mget_in : forall A (m : list (string * A)) k v, mget m k = Some v -> In (k, v) m.
Proof.
  intros A. induction m as [|[q x] r IH]; cbn [mget]; intros k v H; [discriminate|].
  destruct (String.eqb_spec k q) as [->|N]; [injection H as ->; now left|right; now apply IH].
Qed.
Lemma in_mget : forall A (m : list (string * A)) k v, NoDup (map fst m) -> In (k, v) m -> mget m k = Some v.
Proof.
  intros A. induction m as [|[q x] r IH]; cbn [map mget fst]; intros k v ND I; [destruct I|].
  inversion ND as [|? ? N1 N2]; subst. destruct I as [I|I].
  - injection I as -> ->. now rewrite String.eqb_refl.
  - destruct (String.eqb_spec k q) as [->|N]; [|now apply IH].
    exfalso. apply N1. apply (in_map fst) in I. exact I.
Qed.

Lemma mentions_in : forall m k v vols, In (k, vols) m -> In v vols -> 1 <= mentions m v.
Proof.
  intros m k v vols I J. unfold mentions. apply count_occ_In. apply in_concat. exists vols.
  split; [|assumption]. apply (in_map snd) in I. exact I.
Qed.

Lemma filter_id : forall A (f : A -> bool) l, (forall x, In x l -> f x = true) -> filter f l = l.
Proof.
  intros A f. induction l as [|x r IH]; intro H; [reflexivity|]. cbn [filter]. rewrite (H x (or_introl eq_refl)).
  f_equal. apply IH. intros y I. apply H. now right.
Qed.

Lemma filterShared_spec : forall m k, mget (filterSharedPVs m) k =
  match mget m k with Some vols => Some (filter (fun v => Nat.eqb (mentions m v) 1) vols) | None => None end.
Proof.
  intros m k. unfold filterSharedPVs. remember (fold_left (fun m e => markShared m (snd e)) m []) as sh.
  assert (S : forall v, mget sh v = rep (mentions m v)) by (intro v; subst sh; apply shared_spec).
  assert (F : forall vols, mget m k = Some vols ->
     filter (fun v => negb match mget sh v with Some b => b | None => false end) vols = filter (fun v => Nat.eqb (mentions m v) 1) vols).
  { intros vols G. apply mget_in in G. apply filter_ext_in. intros v I. pose proof (mentions_in _ _ _ _ G I) as L.
    rewrite S. destruct (mentions m v) as [|[|n]]; [lia|reflexivity|reflexivity]. }
  destruct (existsb (fun e => snd e) sh) eqn:X.
  - rewrite (mget_map _ _ (fun _ l => filter (fun v => negb match mget sh v with Some b => b | None => false end) l)).
    destruct (mget m k) as [vols|] eqn:G; [|reflexivity]. now rewrite F.
  - destruct (mget m k) as [vols|] eqn:G; [|reflexivity]. f_equal. symmetry. apply filter_id. intros v I.
    pose proof (mentions_in _ _ _ _ (mget_in _ _ _ _ G) I) as L.
    destruct (mget sh v) as [[]|] eqn:M.
    + exfalso. apply mget_in in M. assert (existsb (fun e => snd e) sh = true); [|congruence].
      apply existsb_exists. exists (v, true). split; [assumption|reflexivity].
    + rewrite S in M. destruct (mentions m v) as [|[|n]]; [discriminate|reflexivity|discriminate].
    + rewrite S in M. destruct (mentions m v) as [|[|n]]; [lia|discriminate|discriminate].
Qed.

Lemma mentions_perm : forall m m' v, Permutation m m' -> mentions m v = mentions m' v.
Proof.
  intros m m' v P. unfold mentions. apply Permutation_count_occ.
  rewrite <- !flat_map_concat_map. now apply Permutation_flat_map.
Qed.

Lemma mget_perm : forall A (m m' : list (string * A)) k, NoDup (map fst m) -> Permutation m m' -> mget m k = mget m' k.
Proof.
  intros A m m' k ND P.
  assert (ND' : NoDup (map fst m')) by (eapply Permutation_NoDup; [apply Permutation_map; exact P|assumption]).
  destruct (mget m k) as [v|] eqn:E.
  - symmetry. apply in_mget; [assumption|]. eapply Permutation_in; [exact P|]. now apply mget_in.
  - destruct (mget m' k) as [v|] eqn:E'; [|reflexivity]. apply mget_in in E'. symmetry in P. apply (Permutation_in _ P) in E'.
    apply in_mget in E'; [congruence|assumption].
Qed.

Lemma filterShared_perm : forall m m' k, NoDup (map fst m) -> Permutation m m' ->
  mget (filterSharedPVs m) k = mget (filterSharedPVs m') k.
Proof.
  intros m m' k ND P. rewrite !filterShared_spec, (mget_perm _ m m' k ND P). destruct (mget m' k); [|reflexivity].
  f_equal. apply filter_ext. intro v. now rewrite (mentions_perm m m' v P).
Qed.

(* Used by one pod only. *)
Lemma mentions_one : forall m k vols v, NoDup (map fst m) -> In (k, vols) m -> (forall k' vols', In (k', vols') m -> NoDup vols') ->
  In v vols -> (mentions m v = 1 <-> forall k' vols', In (k', vols') m -> In v vols' -> k' = k).
Proof.
  intros m k vols v ND I U J. apply in_split in I. destruct I as [a [b ->]].
  assert (M : mentions (a ++ (k, vols) :: b) v = mentions (a ++ b) v + 1).
  { rewrite (mentions_perm (a ++ (k, vols) :: b) ((k, vols) :: a ++ b)) by (symmetry; apply Permutation_middle).
    unfold mentions at 1. cbn [map List.concat snd]. rewrite count_occ_app. fold (mentions (a ++ b) v).
    assert (K : count_occ string_dec vols v = 1).
    { apply NoDup_count_occ'; [|assumption]. apply (U k vols). apply in_or_app. right. now left. }
    lia. }
  rewrite M. rewrite map_app in ND. cbn [map fst] in ND.
  assert (NK : ~ In k (map fst (a ++ b))) by (rewrite map_app; now apply NoDup_remove_2).
  split.
  - intros H k' vols' I' J'. apply in_app_or in I'. cbn [In] in I'.
    destruct (string_dec k' k) as [->|N]; [reflexivity|]. exfalso.
    assert (In (k', vols') (a ++ b)) as X.
    { apply in_or_app. destruct I' as [I'|[I'|I']]; [now left|congruence|now right]. }
    pose proof (mentions_in _ _ _ _ X J'). lia.
  - intro H. assert (mentions (a ++ b) v = 0); [|lia]. unfold mentions. apply count_occ_not_In. intro X.
    apply in_concat in X. destruct X as [vols' [X Y]]. apply in_map_iff in X. destruct X as [[k' w] [E X]]. cbn in E. subst w.
    assert (k' = k).
    { apply (H k' vols'); [|assumption]. apply in_app_or in X. apply in_or_app. cbn. tauto. }
    subst k'. apply NK. apply (in_map fst) in X. exact X.
Qed.

(* The map of a list of pods. *)
Definition byPod (ans : string -> string -> nat -> PvcAns) (pods : list Pod) : list (string * list string) :=
  fold_left (fun m p => mset m (getPodKey p) (getPersistentVolumeNamesForPod ans p)) pods [].

Lemma mset_fresh : forall A (m : list (string * A)) k v, ~ In k (map fst m) -> mset m k v = m ++ [(k, v)].
Proof.
  intros A. induction m as [|[q x] r IH]; intros k v N; [reflexivity|]. cbn [mset]. destruct (String.eqb_spec k q) as [->|NE].
  - exfalso. apply N. now left.
  - cbn. f_equal. apply IH. intro X. apply N. now right.
Qed.

Lemma byPod_spec : forall ans pods, NoDup (map getPodKey pods) ->
  byPod ans pods = map (fun p => (getPodKey p, getPersistentVolumeNamesForPod ans p)) pods.
Proof.
  intros ans pods ND. unfold byPod.
  assert (G : forall l m, NoDup (map fst m ++ map getPodKey l) ->
    fold_left (fun m p => mset m (getPodKey p) (getPersistentVolumeNamesForPod ans p)) l m =
    m ++ map (fun p => (getPodKey p, getPersistentVolumeNamesForPod ans p)) l).
  { induction l as [|p r IH]; intros m N; cbn [fold_left map].
    - now rewrite app_nil_r.
    - rewrite IH.
      + rewrite mset_fresh, <- app_assoc; [reflexivity|]. cbn [map] in N. apply NoDup_remove_2 in N. intro X. apply N. apply in_or_app. now left.
      + rewrite mset_fresh.
        * rewrite map_app, <- app_assoc. exact N.
        * cbn [map] in N. apply NoDup_remove_2 in N. intro X. apply N. apply in_or_app. now left. }
  rewrite G; [reflexivity|]. exact ND.
Qed.

Lemma infos_spec : forall ans drv pods k, mget (getPodVolumeInfos ans drv pods) k =
  match mget (byPod ans pods) k with
  | Some vols => Some (podVolumes drv (filter (fun v => Nat.eqb (mentions (byPod ans pods) v) 1) vols))
  | None => None end.
Proof.
  intros ans drv pods k. unfold getPodVolumeInfos. fold (byPod ans pods).
  rewrite (mget_map _ _ (fun _ l => podVolumes drv l)), filterShared_spec.
  destruct (mget (byPod ans pods) k); reflexivity.
Qed.

Lemma podVolumes_in : forall drv names n id, In (n, id) (podVolumes drv names) <-> In n names /\ drv n = Some id /\ id <> "".
Proof.
  intros drv names n id. unfold podVolumes. rewrite in_flat_map. split.
  - intros [x [I H]]. destruct (drv x) as [i|] eqn:D; [|destruct H]. destruct (String.eqb_spec i ""); [destruct H|].
    destruct H as [H|[]]. injection H as <- <-. tauto.
  - intros [I [D N]]. exists n. split; [assumption|]. rewrite D. destruct (String.eqb_spec id ""); [contradiction|now left].
Qed.
Lemma podVolumes_sub : forall drv names, Sub (map fst (podVolumes drv names)) names.
Proof.
  intros drv. induction names as [|n r IH]; [constructor|]. cbn [podVolumes flat_map]. fold (podVolumes drv r).
  destruct (drv n) as [i|]; [|now apply SubSkip]. destruct (String.eqb i ""); [now apply SubSkip|now apply SubTake].
Qed.
Lemma Sub_filter : forall A (f : A -> bool) l, Sub (filter f l) l.
Proof. intros A f. induction l as [|x r IH]; cbn; [constructor|]. destruct (f x); now constructor. Qed.
Lemma Sub_trans : forall A (a b c : list A), Sub a b -> Sub b c -> Sub a c.
Proof.
  intros A a b c S T. revert a S. induction T; intros a0 S.
  - assumption.
  - apply SubSkip. now apply IHT.
  - inversion S; subst; [apply SubSkip; now apply IHT|apply SubTake; now apply IHT].
Qed.
