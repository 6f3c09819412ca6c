(* Proofs for C94. *)
Require Import List String Bool Arith ZArith Lia Permutation.
From Verif Require Import Sort AttModel AttSpec DrainModel DrainSpec DrainProofs BudgetSpec.
Import ListNotations.
Open Scope string_scope.
Open Scope list_scope.
Open Scope nat_scope.

Lemma hopeless_spec : forall b, isMisconfiguredPdb b = true <-> Hopeless b.
Proof.
  intros b. unfold isMisconfiguredPdb, Hopeless. destruct (Z.eqb_spec (b_gen b) (b_seen b)); cbn [negb].
  - rewrite !andb_true_iff, Z.ltb_lt, Z.leb_le, Z.eqb_eq. tauto.
  - split; [discriminate | tauto].
Qed.

Definition wrongAt (bs : list Pdb) : bool := match getPdbForPod bs with Some b => isMisconfiguredPdb b | None => false end.
Lemma wrong_spec : forall bs, wrongAt bs = true <-> hopelessFirst bs.
Proof.
  intros bs. unfold wrongAt, hopelessFirst. destruct bs as [|b r]; cbn.
  - split; [discriminate|]. intros (b & r & E & _). discriminate.
  - rewrite hopeless_spec. split; [intros H; exists b, r; auto|]. intros (b' & r' & E & H). injection E as <- <-. exact H.
Qed.

Lemma evictions_app : forall k a b, evictions k (a ++ b) = evictions k a ++ evictions k b.
Proof. intros. apply flat_map_app. Qed.

Lemma split_after : forall A (l1 l2 a : list A) y c, l1 ++ l2 = a ++ y :: c -> ~ In y l1 -> exists a2, a = l1 ++ a2 /\ l2 = a2 ++ y :: c.
Proof.
  intros A. induction l1 as [|x l1 IH]; intros l2 a y c E N.
  - exists a. auto.
  - destruct a as [|z a]; cbn in E.
    + injection E as -> _. contradiction N. now left.
    + injection E as -> E. apply IH in E as (a2 & -> & ->); [|intros I; apply N; now right]. exists a2. auto.
Qed.

Section Internal.
  Variable o : Opts.
  Variable matches : string -> string -> bool.
  Variable info : list (string * list (string * string)).
  Variable env : nat -> Att.
  Notation internal := (evictPodsWithPVInternal o matches info env).

  (* One pod of a pass. *)
  Lemma internal_cases : forall att p rest retry k,
    (exists t r, internal att (p :: rest) retry k = mkIRes r true t (S k) /\ evictions (getPodKey p) t = evictions (getPodKey p) t /\
       (t = [TSend p RNil] \/ t = [TCall att p AOk; TDetach p DGone; TSend p RNil]) /\ r = retry ++ rest) \/
    (exists x t, internal att (p :: rest) retry k = pre (TCall att p x :: t) (internal att rest (retry ++ [p]) (S k)) /\ refused x /\ t = [] /\
       (att = true -> x = ATooMany -> wrongAt (a_pdbs (env k)) = false) /\ x = a_ans (env k)) \/
    (exists x t, internal att (p :: rest) retry k = pre (TCall att p x :: t) (internal att rest retry (S k)) /\ x = a_ans (env k) /\
       ((att = true /\ x = ATooMany /\ wrongAt (a_pdbs (env k)) = true /\ t = [TSend p RPdb]) \/
        (x <> ATooMany /\ called t = [] /\ (forall q, ~ In (TSend q RPdb) t) /\ (forall q e, In (TSend q e) t -> e = RNil \/ e = RDetach)))).
  Proof.
    intros att p rest retry k. cbn [evictPodsWithPVInternal]. destruct (a_done (env k)) eqn:D.
    - left. eexists [_], _. split; [reflexivity|]. auto.
    - destruct (a_ans (env k)) eqn:A.
      + destruct (waitForDetach _ _ _ _) eqn:W.
        * right. right. exists AOk. eexists. split; [reflexivity|]. split; [reflexivity|]. right. split; [discriminate|]. split; [reflexivity|].
          split; [intros q [X|[X|[X|[]]]]; discriminate|]. intros q e [X|[X|[X|[]]]]; try discriminate. injection X as _ <-. now left.
        * left. eexists [_; _; _], _. split; [reflexivity|]. auto.
        * right. right. exists AOk. eexists. split; [reflexivity|]. split; [reflexivity|]. right. split; [discriminate|]. split; [reflexivity|].
          split; [intros q [X|[X|[]]]; discriminate|]. intros q e [X|[X|[]]]; try discriminate. injection X as _ <-. now right.
        * right. right. exists AOk. eexists. split; [reflexivity|]. split; [reflexivity|]. right. split; [discriminate|]. split; [reflexivity|].
          split; [intros q [X|[X|[]]]; discriminate|]. intros q e [X|[X|[]]]; try discriminate. injection X as _ <-. now right.
      + destruct att eqn:T.
        * unfold wrongAt. destruct (getPdbForPod (a_pdbs (env k))) as [b|] eqn:G; [destruct (isMisconfiguredPdb b) eqn:M|].
          -- right. right. exists ATooMany. eexists. split; [reflexivity|]. split; [reflexivity|]. left. auto.
          -- right. left. exists ATooMany, []. split; [reflexivity|]. unfold refused. auto.
          -- right. left. exists ATooMany, []. split; [reflexivity|]. unfold refused. auto.
        * right. left. exists ATooMany, []. split; [reflexivity|]. unfold refused. repeat split; auto. discriminate.
      + right. right. exists ANotFound. eexists. split; [reflexivity|]. split; [reflexivity|]. right. split; [discriminate|]. split; [reflexivity|].
        split; [intros q [X|[]]; discriminate|]. intros q e [X|[]]. injection X as _ <-. now left.
      + right. left. exists AOther, []. split; [reflexivity|]. unfold refused. repeat split; auto. discriminate.
  Qed.

  Lemma internal_flag : forall att pods retry k b q x,
    In (TCall b q x) (i_trace (internal att pods retry k)) -> b = att /\ In q pods.
  Proof.
    intros att. induction pods as [|p rest IH]; intros retry k b q x I; [destruct I|].
    destruct (internal_cases att p rest retry k) as [(t & r & E & _ & T & _)|[(y & t & E & _ & -> & _)|(y & t & E & _ & T)]]; rewrite E in I; cbn [i_trace pre] in I.
    - destruct T as [-> | ->]; cbn in I; [destruct I as [I|[]]; discriminate|]. destruct I as [I|[I|[I|[]]]]; try discriminate. injection I as <- <- <-. split; [reflexivity | now left].
    - destruct I as [I|I]; [injection I as <- <- <-; split; [reflexivity | now left]|]. apply IH in I as (-> & I). split; [reflexivity | now right].
    - destruct I as [I|I]; [injection I as <- <- <-; split; [reflexivity | now left]|]. apply in_app_or in I as [I|I].
      + exfalso. destruct T as [(_ & _ & _ & ->)|(_ & C & _)]; [destruct I as [I|[]]; discriminate|].
        assert (X : In q (called t)) by (unfold called; apply in_flat_map; exists (TCall b q x); split; [exact I | now left]). rewrite C in X. destruct X.
      + apply IH in I as (-> & I). split; [reflexivity | now right].
  Qed.

  Lemma no_evictions : forall t k, (forall b q x, In (TCall b q x) t -> b = true -> getPodKey q <> k) -> evictions k t = [].
  Proof.
    intros t k H. induction t as [|e t IH]; [reflexivity|]. cbn [evictions flat_map] in *. fold (evictions k t). rewrite IH; [|intros b q x I; apply (H b q x); now right].
    destruct e as [b q x|? ?|? ?|? ?|? ?]; try reflexivity. destruct b; [|reflexivity].
    destruct (String.eqb_spec (getPodKey q) k) as [E|_]; [|reflexivity]. exfalso. now apply (H true q x (or_introl eq_refl) eq_refl).
  Qed.

  Lemma internal_sub : forall att pods retry k q, In q (i_remaining (internal att pods retry k)) -> In q retry \/ In q pods.
  Proof.
    intros att. induction pods as [|p rest IH]; intros retry k q I; [now left|].
    destruct (internal_cases att p rest retry k) as [(t & r & E & _ & _ & ->)|[(y & t & E & _)|(y & t & E & _)]]; rewrite E in I; cbn [i_remaining pre] in I.
    - apply in_app_or in I as [I|I]; [now left|right; now right].
    - apply IH in I as [I|I]; [|right; now right]. apply in_app_or in I as [I|[->|[]]]; [now left|right; now left].
    - apply IH in I as [I|I]; [now left|right; now right].
  Qed.

  (* What is left over was refused once; the keys stay distinct. *)
  Lemma internal_left : forall pods retry k, NoDup (map getPodKey (retry ++ pods)) ->
    let r := internal true pods retry k in
    i_fast r = false ->
    NoDup (map getPodKey (i_remaining r)) /\
    forall q, In q (i_remaining r) -> ~ In q retry -> In q pods /\ exists x, evictions (getPodKey q) (i_trace r) = [x] /\ refused x.
  Proof.
    induction pods as [|p rest IH]; intros retry k N r F.
    - unfold r. cbn. rewrite app_nil_r in N. split; [exact N|]. intros q I C. contradiction.
    - assert (NP : ~ In (getPodKey p) (map getPodKey retry)).
      { rewrite map_app in N. cbn [map] in N. apply NoDup_remove_2 in N. intros I. apply N, in_or_app. now left. }
      assert (NR : ~ In (getPodKey p) (map getPodKey rest)).
      { rewrite map_app in N. cbn [map] in N. apply NoDup_remove_2 in N. intros I. apply N, in_or_app. now right. }
      unfold r in *. clear r. destruct (internal_cases true p rest retry k) as [(t & r & E & _)|[(y & t & E & R & -> & _)|(y & t & E & _ & T)]]; rewrite E in F |- *; cbn [i_remaining i_trace i_fast pre] in *.
      + discriminate.
      + assert (N' : NoDup (map getPodKey ((retry ++ [p]) ++ rest))) by (rewrite <- app_assoc; exact N).
        destruct (IH (retry ++ [p]) (S k) N' F) as (A & B). split; [exact A|]. intros q I C.
        destruct (in_dec string_dec (getPodKey q) [getPodKey p]) as [K|K].
        * destruct K as [K|[]].
          assert (Q : q = p).
          { destruct (internal_sub _ _ _ _ _ I) as [J|J].
            - apply in_app_or in J as [J|[J|[]]]; [contradiction | congruence].
            - exfalso. apply NR. rewrite K. apply in_map, J. }
          subst q. split; [now left|]. exists y. split; [|exact R]. change (TCall true p y :: []) with ([TCall true p y]). rewrite evictions_app.
          rewrite (no_evictions (i_trace _)); [cbn; rewrite String.eqb_refl; reflexivity|]. intros b q x J _. apply internal_flag in J as (_ & J). intros X. apply NR. rewrite <- X. apply in_map, J.
        * assert (C' : ~ In q (retry ++ [p])).
          { intros J. apply in_app_or in J as [J|[J|[]]]; [contradiction|]. subst q. apply K. now left. }
          destruct (B q I C') as (J & x & X & Y). split; [now right|]. exists x. split; [|exact Y].
          rewrite evictions_app, X. cbn. destruct (String.eqb_spec (getPodKey p) (getPodKey q)) as [Z|_]; [exfalso; apply K; now left | reflexivity].
      + assert (N' : NoDup (map getPodKey (retry ++ rest))).
        { rewrite map_app in *. cbn [map] in N. now apply NoDup_remove_1 in N. }
        destruct (IH retry (S k) N' F) as (A & B). split; [exact A|]. intros q I C. destruct (B q I C) as (J & x & X & Y). split; [now right|].
        exists x. split; [|exact Y]. change (TCall true p y :: t) with ([TCall true p y] ++ t). rewrite <- !app_assoc, !evictions_app.
        assert (K : getPodKey p <> getPodKey q) by (intros Z; apply NR; rewrite Z; apply in_map, J).
        assert (E1 : evictions (getPodKey q) [TCall true p y] = []) by (cbn; apply String.eqb_neq in K; rewrite K; reflexivity).
        assert (E2 : evictions (getPodKey q) t = []).
        { apply no_evictions. intros b z w L _. exfalso. destruct T as [(_ & _ & _ & ->)|(_ & Q & _)]; [destruct L as [L|[]]; discriminate|].
          assert (G : In z (called t)) by (unfold called; apply in_flat_map; exists (TCall b z w); split; [exact L | now left]). rewrite Q in G. destruct G. }
        rewrite E1, E2. exact X.
  Qed.

  Lemma rounds_left : forall n pods rem k, NoDup (map getPodKey pods) -> rem = pods \/ n <> 0 ->
    let r := rounds o matches info env n pods rem k in
    i_fast r = false ->
    NoDup (map getPodKey (i_remaining r)) /\
    (forall q, In q (i_remaining r) -> In q pods /\ List.length (evictions (getPodKey q) (i_trace r)) = n /\
       forall x, In x (evictions (getPodKey q) (i_trace r)) -> refused x).
  Proof.
    induction n as [|n IH]; intros pods rem k N D r F; unfold r in *; clear r; cbn [rounds] in *.
    - destruct D as [-> | D]; [|congruence]. cbn. split; [exact N|]. intros q I. repeat split; auto. intros x [].
    - pose proof (internal_left pods [] k N) as L. cbn zeta in L.
      destruct (i_fast (internal true pods [] k)) eqn:FF; cbn [orb] in *; [congruence|]. destruct (L eq_refl) as (L1 & L2). clear L.
      destruct (i_remaining (internal true pods [] k)) as [|z zs] eqn:R.
      + rewrite R. split; [constructor|]. intros q [].
      + rewrite <- R in *. cbn [pre i_fast i_remaining i_trace] in *.
        destruct (IH (i_remaining (internal true pods [] k)) (i_remaining (internal true pods [] k)) (i_next (internal true pods [] k)) L1 (or_introl eq_refl) F) as (A & B).
        split; [exact A|]. intros q I. destruct (B q I) as (J & X & Y). destruct (L2 q J (fun f => f)) as (K & x & E & Q). split; [exact K|].
        rewrite evictions_app, E. split; [cbn; now rewrite X|]. intros w [<- | W]; [exact Q | now apply Y].
  Qed.

  Lemma rounds_flag : forall n pods rem k b q x, In (TCall b q x) (i_trace (rounds o matches info env n pods rem k)) -> b = true.
  Proof.
    induction n as [|n IH]; intros pods rem k b q x I; cbn [rounds] in I; [destruct I|].
    destruct (i_fast _ || _); [now apply internal_flag in I|]. cbn [pre i_trace] in I. apply in_app_or in I as [I|I]; [now apply internal_flag in I|]. now apply IH in I.
  Qed.

  Lemma sorted_deletes : forall pods a p x c, NoDup (map getPodKey pods) ->
    evictSorted o matches info env true pods = a ++ TCall false p x :: c ->
    List.length (evictions (getPodKey p) a) = Z.to_nat (o_retries o) /\ (forall y, In y (evictions (getPodKey p) a) -> refused y) /\ (0 < o_retries o)%Z.
  Proof.
    intros pods a p x c N E. unfold evictSorted in E. set (r := rounds o matches info env (Z.to_nat (o_retries o)) pods [] 0) in *.
    assert (NM : forall (f : Pod -> Res) l, ~ In (TCall false p x) (map (fun q => TSend q (f q)) l)) by (intros f l I; apply in_map_iff in I as (? & ? & _); discriminate).
    assert (NR : ~ In (TCall false p x) (i_trace r)) by (intros I; apply rounds_flag in I; discriminate).
    destruct (negb (i_fast r) && negb match i_remaining r with [] => true | _ => false end) eqn:B.
    - apply andb_prop in B as (B1 & B2). apply negb_true_iff in B1.
      cbn [pre i_trace i_remaining] in E. rewrite <- app_assoc in E. destruct (split_after _ _ _ _ _ _ E NR) as (a2 & -> & E2).
      assert (I : In p (i_remaining r)).
      { assert (J : In (TCall false p x) (i_trace (internal false (i_remaining r) [] (i_next r)) ++ map (fun q => TSend q REvict) (i_remaining (internal false (i_remaining r) [] (i_next r)))))
          by (rewrite E2; apply in_or_app; right; now left).
        apply in_app_or in J as [J|J]; [now apply internal_flag in J | now apply (NM (fun _ => REvict)) in J]. }
      assert (D : 0 < Z.to_nat (o_retries o)).
      { unfold r in I. destruct (Z.to_nat (o_retries o)) eqn:Z; [destruct I | lia]. }
      destruct (rounds_left (Z.to_nat (o_retries o)) pods [] 0 N) as (_ & L); [right; lia | exact B1|].
      destruct (L p I) as (_ & X & Y). fold r in X, Y. rewrite evictions_app.
      rewrite (no_evictions a2); [rewrite app_nil_r; repeat split; auto; lia|].
      intros b q y J -> _. assert (K : In (TCall true q y) (a2 ++ TCall false p x :: c)) by (apply in_or_app; now left). rewrite <- E2 in K.
      apply in_app_or in K as [K|K]; [apply internal_flag in K as (K & _); discriminate | apply in_map_iff in K as (? & ? & _); discriminate].
    - exfalso. assert (J : In (TCall false p x) (i_trace r ++ map (fun q => TSend q (if i_fast r then RNil else REvict)) (i_remaining r)))
        by (rewrite E; apply in_or_app; right; now left).
      apply in_app_or in J as [J|J]; [contradiction | now apply (NM (fun _ => if i_fast r then RNil else REvict)) in J].
  Qed.

  Lemma sorted_forced : forall pods b p x, In (TCall b p x) (evictSorted o matches info env false pods) -> b = false.
  Proof.
    intros pods b p x I. unfold evictSorted in I. apply in_app_or in I as [I|I]; [now apply internal_flag in I | apply in_map_iff in I as (? & ? & _); discriminate].
  Qed.

  (* Calls and the error about the budget, one after the other. *)
  Fixpoint good (k : nat) (t : list TEv) : Prop :=
    match t with
    | [] => True
    | TCall b p a :: r =>
        if b && (match a with ATooMany => true | _ => false end) && wrongAt (a_pdbs (env k))
        then match r with TSend q RPdb :: r' => q = p /\ good (S k) r' | _ => False end
        else good (S k) r
    | TSend _ e :: r => e <> RPdb /\ good k r
    | _ :: r => good k r
    end.

  Lemma good_app : forall t k u, good k t -> good (k + List.length (called t)) u -> good k (t ++ u).
  Proof.
    assert (G : forall n t k u, List.length t <= n -> good k t -> good (k + List.length (called t)) u -> good k (t ++ u)).
    { induction n as [|n IH]; intros t k u L Gt Gu.
      - destruct t; [|cbn in L; lia]. cbn in *. now rewrite Nat.add_0_r in Gu.
      - destruct t as [|e t]; [cbn in *; now rewrite Nat.add_0_r in Gu|]. cbn [List.length] in L. destruct e as [b p a|p d|p d|p d|p d]; cbn [good app called flat_map] in *.
        + fold (called t) in Gu. cbn [app List.length] in Gu. replace (k + S (List.length (called t))) with (S k + List.length (called t)) in Gu by lia.
          destruct (b && _ && _).
          * destruct t as [|[| | | |q e] t]; try contradiction. destruct e; try contradiction. cbn [app]. destruct Gt as (-> & Gt). split; [reflexivity|].
            apply IH; [cbn in L; lia | exact Gt | exact Gu].
          * apply IH; [lia | exact Gt | exact Gu].
        + apply IH; [lia | exact Gt | exact Gu].
        + apply IH; [lia | exact Gt | exact Gu].
        + apply IH; [lia | exact Gt | exact Gu].
        + split; [apply Gt|]. apply IH; [lia | apply Gt | exact Gu]. }
    intros t k u. apply (G (List.length t)). lia.
  Qed.

  Lemma good_internal : forall att pods retry k, let r := internal att pods retry k in
    good k (i_trace r) /\ (i_fast r = false -> i_next r = k + List.length (called (i_trace r))).
  Proof.
    intros att. induction pods as [|p rest IH]; intros retry k r; unfold r; clear r; [cbn; split; [exact I | lia]|].
    destruct (internal_cases att p rest retry k) as [(t & r & E & _ & T & _)|[(y & t & E & R & -> & W & A)|(y & t & E & A & T)]]; rewrite E; cbn [i_trace i_fast i_next pre].
    - split; [|discriminate]. destruct T as [-> | ->]; cbn; [repeat split; discriminate|]. rewrite andb_false_r. cbn. repeat split; discriminate.
    - destruct (IH (retry ++ [p]) (S k)) as (I1 & I2). split.
      + cbn [app good]. destruct (att && _ && wrongAt (a_pdbs (env k))) eqn:B; [|exact I1]. exfalso. destruct att; [|discriminate]. destruct y; cbn in B; try discriminate. rewrite W in B by reflexivity. discriminate.
      + intros F. rewrite (I2 F). cbn [app called flat_map List.length]. fold (called (i_trace (internal att rest (retry ++ [p]) (S k)))). lia.
    - destruct (IH retry (S k)) as (I1 & I2).
      assert (L : called t = []) by (destruct T as [(_ & _ & _ & ->)|(_ & C & _)]; [reflexivity | exact C]).
      assert (C1 : List.length (called (TCall att p y :: t)) = 1) by (cbn [called flat_map app]; fold (called t); rewrite L; reflexivity).
      split.
      + apply good_app.
        * destruct T as [(-> & -> & W & ->)|(Ny & _ & NP & _)].
          -- cbn [good]. rewrite W. cbn. auto.
          -- cbn [good]. replace (att && match y with ATooMany => true | _ => false end && wrongAt (a_pdbs (env k))) with false by (destruct y, att; try reflexivity; congruence).
             clear -L NP. revert L NP. generalize (S k). induction t as [|e t IH]; intros n L NP; [exact I|]. destruct e as [b q x|q d|q d|q d|q d]; cbn [called flat_map app] in L; [discriminate|..]; cbn [good].
             ++ apply IH; [exact L | intros z J; apply (NP z); now right].
             ++ apply IH; [exact L | intros z J; apply (NP z); now right].
             ++ apply IH; [exact L | intros z J; apply (NP z); now right].
             ++ split; [intros ->; apply (NP q); now left|]. apply IH; [exact L | intros z J; apply (NP z); now right].
        * rewrite C1. replace (k + 1) with (S k) by lia. exact I1.
      + intros F. rewrite (I2 F), called_app, app_length, C1. lia.
  Qed.

  Lemma good_rounds : forall n pods rem k, let r := rounds o matches info env n pods rem k in
    good k (i_trace r) /\ (i_fast r = false -> i_next r = k + List.length (called (i_trace r))).
  Proof.
    induction n as [|n IH]; intros pods rem k r; unfold r; clear r; cbn [rounds].
    - cbn. split; [exact I | lia].
    - destruct (good_internal true pods [] k) as (A & B). destruct (i_fast (internal true pods [] k)) eqn:F; cbn [orb].
      + split; [exact A | congruence].
      + destruct (i_remaining (internal true pods [] k)) eqn:R; [split; [exact A | intros _; apply B; reflexivity]|]. rewrite <- R. cbn [pre i_trace i_fast i_next].
        destruct (IH (i_remaining (internal true pods [] k)) (i_remaining (internal true pods [] k)) (i_next (internal true pods [] k))) as (C & D).
        pose proof (B eq_refl) as E. split; [apply good_app; [exact A|]|].
        * rewrite <- E. exact C.
        * intros G. specialize (D G). rewrite called_app, app_length. lia.
  Qed.

  Lemma good_map : forall (f : Pod -> Res) l k, (forall p, f p <> RPdb) -> good k (map (fun p => TSend p (f p)) l).
  Proof. intros f l k H. induction l as [|p l IH]; [exact I|]. cbn. split; [apply H | exact IH]. Qed.

  Lemma good_sorted : forall att pods, good 0 (evictSorted o matches info env att pods).
  Proof.
    intros att pods. unfold evictSorted. destruct att.
    - set (r := rounds o matches info env (Z.to_nat (o_retries o)) pods [] 0). destruct (good_rounds (Z.to_nat (o_retries o)) pods [] 0) as (A & B). fold r in A, B.
      destruct (i_fast r) eqn:F; cbn [negb andb].
      + apply good_app; [exact A|]. cbv iota. apply (good_map (fun _ => RNil)). discriminate.
      + destruct (negb _).
        * cbn [pre i_trace i_remaining]. rewrite <- app_assoc. apply good_app; [exact A|]. rewrite <- (B eq_refl).
          destruct (good_internal false (i_remaining r) [] (i_next r)) as (C & _). apply good_app; [exact C|]. apply (good_map (fun _ => REvict)). discriminate.
        * apply good_app; [exact A|]. cbv iota. apply (good_map (fun _ => REvict)). discriminate.
    - destruct (good_internal false pods [] 0) as (C & _). apply good_app; [exact C|]. apply (good_map (fun _ => RDelete)). discriminate.
  Qed.

  Lemma good_split : forall a k p c, good k (a ++ TCall true p ATooMany :: c) ->
    (wrongAt (a_pdbs (env (k + List.length (called a)))) = true <-> exists c', c = TSend p RPdb :: c').
  Proof.
    assert (G : forall n a k p c, List.length a <= n -> good k (a ++ TCall true p ATooMany :: c) ->
      (wrongAt (a_pdbs (env (k + List.length (called a)))) = true <-> exists c', c = TSend p RPdb :: c')).
    { assert (Base : forall k p c, good k (TCall true p ATooMany :: c) -> (wrongAt (a_pdbs (env (k + 0))) = true <-> exists c', c = TSend p RPdb :: c')).
      { intros k p c H. cbn [good andb] in H. rewrite Nat.add_0_r. destruct (wrongAt (a_pdbs (env k))).
        - split; [|reflexivity]. intros _. destruct c as [|[| | | |q e] c]; try contradiction. destruct e; try contradiction. destruct H as (-> & _). eexists. reflexivity.
        - split; [discriminate|]. intros (c' & ->). cbn in H. destruct H as (H & _). congruence. }
      induction n as [|n IH]; intros a k p c L H; destruct a as [|e a]; try (cbn in L; lia); [exact (Base k p c H)..|].
      cbn [List.length] in L. destruct e as [b q x|q d|q d|q d|q d]; cbn [app good called flat_map] in *.
      - cbn [app List.length]. fold (called a). replace (k + S (List.length (called a))) with (S k + List.length (called a)) by lia.
        destruct (b && _ && _).
        + destruct a as [|[| | | |z e] a]; cbn [app] in H; try contradiction. destruct e; try contradiction.
          destruct H as (_ & H). cbn [called flat_map app]. fold (called a). apply IH; [cbn in L; lia | exact H].
        + apply IH; [lia | exact H].
      - apply IH; [lia | exact H].
      - apply IH; [lia | exact H].
      - apply IH; [lia | exact H].
      - apply IH; [lia | apply H]. }
    intros a k p c. apply (G (List.length a)). lia.
  Qed.

  Lemma good_error : forall n t k p, List.length t <= n -> good k t -> In (TSend p RPdb) t -> In (TCall true p ATooMany) t.
  Proof.
    induction n as [|n IH]; intros t k p L H J; destruct t as [|e t]; try (cbn in L; lia); try (destruct J; fail).
    cbn [List.length] in L. destruct e as [b q x|q d|q d|q d|q d]; cbn [good] in H.
    - destruct J as [J|J]; [discriminate|]. destruct (b && match x with ATooMany => true | _ => false end && wrongAt (a_pdbs (env k))) eqn:B.
      + destruct t as [|[| | | |z e] t]; try contradiction. destruct e; try contradiction. destruct H as (-> & H).
        destruct J as [J|J]; [|right; right; apply (IH t (S k) p); [cbn in L; lia | exact H | exact J]].
        injection J as ->. left. destruct b; [|discriminate]. destruct x; try discriminate. reflexivity.
      + right. apply (IH t (S k) p); [lia | exact H | exact J].
    - destruct J as [J|J]; [discriminate|]. right. apply (IH t k p); [lia | exact H | exact J].
    - destruct J as [J|J]; [discriminate|]. right. apply (IH t k p); [lia | exact H | exact J].
    - destruct J as [J|J]; [discriminate|]. right. apply (IH t k p); [lia | exact H | exact J].
    - destruct J as [J|J]; [injection J as _ ->; destruct H; congruence|]. right. apply (IH t k p); [lia | apply H | exact J].
  Qed.

  (* The errors of the end name what was tried. *)
  Lemma internal_errors : forall att pods retry k q e, In (TSend q e) (i_trace (internal att pods retry k)) -> e = RNil \/ e = RDetach \/ e = RPdb.
  Proof.
    intros att. induction pods as [|p rest IH]; intros retry k q e J; [destruct J|].
    destruct (internal_cases att p rest retry k) as [(t & r & E & _ & T & _)|[(y & t & E & _ & -> & _)|(y & t & E & _ & T)]]; rewrite E in J; cbn [i_trace pre] in J.
    - destruct T as [-> | ->]; cbn in J; repeat (destruct J as [J|J]; try discriminate; try (injection J as _ <-; now left)); destruct J.
    - destruct J as [J|J]; [discriminate | now apply IH in J].
    - destruct J as [J|J]; [discriminate|]. apply in_app_or in J as [J|J]; [|now apply IH in J].
      destruct T as [(_ & _ & _ & ->)|(_ & _ & _ & T)]; [destruct J as [J|[]]; injection J as _ <-; auto|]. apply T in J. tauto.
  Qed.
  Lemma rounds_errors : forall n pods rem k q e, In (TSend q e) (i_trace (rounds o matches info env n pods rem k)) -> e = RNil \/ e = RDetach \/ e = RPdb.
  Proof.
    induction n as [|n IH]; intros pods rem k q e J; cbn [rounds] in J; [destruct J|].
    destruct (i_fast _ || _); [now apply internal_errors in J|]. cbn [pre i_trace] in J. apply in_app_or in J as [J|J]; [now apply internal_errors in J|]. now apply IH in J.
  Qed.
  Lemma sorted_errors : forall att pods q e, In (TSend q e) (evictSorted o matches info env att pods) ->
    e = RNil \/ e = RDetach \/ e = RPdb \/ e = if att then REvict else RDelete.
  Proof.
    intros att pods q e J. unfold evictSorted in J. destruct att.
    - set (r := rounds o matches info env (Z.to_nat (o_retries o)) pods [] 0) in *.
      destruct (negb (i_fast r) && _).
      + cbn [pre i_trace i_remaining] in J. rewrite <- app_assoc in J. apply in_app_or in J as [J|J]; [apply rounds_errors in J; tauto|].
        apply in_app_or in J as [J|J]; [apply internal_errors in J; tauto|]. apply in_map_iff in J as (? & J & _). injection J as _ <-. auto.
      + apply in_app_or in J as [J|J]; [apply rounds_errors in J; tauto|]. apply in_map_iff in J as (? & J & _). injection J as _ <-. destruct (i_fast r); auto.
    - apply in_app_or in J as [J|J]; [apply internal_errors in J; tauto|]. apply in_map_iff in J as (? & J & _). injection J as _ <-. auto.
  Qed.
End Internal.

(* Pods without claims. *)
Lemma noPv_shape : forall o e p f i t, evictPodWithoutPVInternal o e p f i true = Some t ->
  exists n b x rest, t = repeat (TCall true p ATooMany) n ++ TCall b p x :: rest /\ called rest = [] /\
    (b = true <-> (Z.of_nat (i + n) < o_retries o)%Z) /\ x = e_ans e (i + n) /\
    (forall j, j < n -> e_ans e (i + j) = ATooMany /\ wrongAt (e_pdbs e (i + j)) = false /\ (Z.of_nat (i + j) < o_retries o)%Z) /\
    ((exists r, rest = TSend p RPdb :: r) <-> b = true /\ x = ATooMany /\ wrongAt (e_pdbs e (i + n)) = true) /\
    (b = true -> x = ATooMany -> wrongAt (e_pdbs e (i + n)) = true) /\
    (forall q, In (TSend q RPdb) rest -> b = true /\ x = ATooMany).
Proof.
  intros o e p. induction f as [|f IH]; intros i t H; [discriminate|]. rewrite noPv_S in H. cbv zeta in H.
  remember (if Z.leb (o_retries o) (Z.of_nat i) then false else true) as b.
  assert (B : b = true <-> (Z.of_nat i < o_retries o)%Z) by (subst b; destruct (Z.leb_spec (o_retries o) (Z.of_nat i)); split; (discriminate || lia || reflexivity)).
  assert (FIN : forall x rest, t = TCall b p x :: rest -> called rest = [] -> x = e_ans e i ->
    ((exists r, rest = TSend p RPdb :: r) <-> b = true /\ x = ATooMany /\ wrongAt (e_pdbs e i) = true) ->
    (b = true -> x = ATooMany -> wrongAt (e_pdbs e i) = true) ->
    (forall q, In (TSend q RPdb) rest -> b = true /\ x = ATooMany) ->
    exists n b x rest, t = repeat (TCall true p ATooMany) n ++ TCall b p x :: rest /\ called rest = [] /\
    (b = true <-> (Z.of_nat (i + n) < o_retries o)%Z) /\ x = e_ans e (i + n) /\
    (forall j, j < n -> e_ans e (i + j) = ATooMany /\ wrongAt (e_pdbs e (i + j)) = false /\ (Z.of_nat (i + j) < o_retries o)%Z) /\
    ((exists r, rest = TSend p RPdb :: r) <-> b = true /\ x = ATooMany /\ wrongAt (e_pdbs e (i + n)) = true) /\
    (b = true -> x = ATooMany -> wrongAt (e_pdbs e (i + n)) = true) /\
    (forall q, In (TSend q RPdb) rest -> b = true /\ x = ATooMany)).
  { intros x rest -> C X W V Q. exists 0, b, x, rest. rewrite !Nat.add_0_r. split; [reflexivity|]. split; [exact C|]. split; [exact B|]. split; [exact X|].
    split; [intros j J; lia|]. split; [exact W|]. split; [exact V | exact Q]. }
  destruct (e_ans e i) eqn:A.
  - destruct (o_force o).
    + injection H as <-. eapply FIN; [reflexivity | reflexivity | reflexivity| | |].
      * split; [intros (r & X); discriminate | intros (_ & X & _); discriminate].
      * discriminate.
      * intros q [X|[]]; discriminate.
    + injection H as <-. eapply FIN; [reflexivity | reflexivity | reflexivity| | |].
      * split; [intros (r & X); discriminate | intros (_ & X & _); discriminate].
      * discriminate.
      * intros q [X|[X|[]]]; [discriminate|]. destruct (waitForDelete _ _); discriminate.
  - destruct b; cbn [negb] in H.
    + fold (wrongAt (e_pdbs e i)) in *.
      assert (K : wrongAt (e_pdbs e i) = true /\ t = [TCall true p ATooMany; TSend p RPdb] \/
        wrongAt (e_pdbs e i) = false /\ option_map (cons (TCall true p ATooMany)) (evictPodWithoutPVInternal o e p f (S i) true) = Some t).
      { unfold wrongAt. destruct (getPdbForPod (e_pdbs e i)) as [b|]; [destruct (isMisconfiguredPdb b)|]; [left; injection H as <-; auto | right; auto | right; auto]. }
      destruct K as [(W & ->)|(W & K)].
      * eapply FIN; [reflexivity | reflexivity | reflexivity| | |].
        -- split; [auto | intros _; eexists; reflexivity].
        -- auto.
        -- auto.
      * destruct (evictPodWithoutPVInternal o e p f (S i) true) as [t'|] eqn:G; [|discriminate]. injection K as <-.
        destruct (IH (S i) t' G) as (n & b & x & rest & -> & C & D & X & J & W' & V & Q). exists (S n), b, x, rest.
        replace (i + S n) with (S i + n) by lia. split; [reflexivity|]. split; [exact C|]. split; [exact D|]. split; [exact X|].
        split; [|split; [exact W'|]; split; [exact V | exact Q]].
        intros j L. destruct j as [|j]; [rewrite Nat.add_0_r; repeat split; auto; now apply B|]. replace (i + S j) with (S i + j) by lia. apply J. lia.
    + injection H as <-. eapply FIN; [reflexivity | reflexivity | reflexivity| | |].
      * split; [intros (r & X); discriminate | intros (X & _); discriminate].
      * discriminate.
      * intros q [X|[]]; discriminate.
  - injection H as <-. eapply FIN; [reflexivity | reflexivity | reflexivity| | |].
    + split; [intros (r & X); discriminate | intros (_ & X & _); discriminate].
    + discriminate.
    + intros q [X|[]]; discriminate.
  - injection H as <-. eapply FIN; [reflexivity | reflexivity | reflexivity| | |].
    + split; [intros (r & X); discriminate | intros (_ & X & _); discriminate].
    + discriminate.
    + intros q [X|[]]; discriminate.
Qed.
