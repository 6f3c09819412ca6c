Require Import Coq.ZArith.ZArith Coq.Lists.List Coq.Strings.String Coq.Bool.Bool Coq.micromega.Lia.
From Verif Require Import MetaModel MetaSpec MetaProofs TmplModel HashModel HashSpec.
Import ListNotations.
Open Scope string_scope.
Open Scope list_scope.
Open Scope Z_scope.

Lemma active_counts : forall m, activeMach m = true <-> counts m.
Proof.
  intros m. unfold activeMach, counts. rewrite andb_true_iff, !negb_true_iff, !String.eqb_neq. tauto.
Qed.

Lemma read_some : forall k m v, v <> "" -> read k m = v -> get k m = Some v.
Proof. intros k m v N E. unfold read in E. destruct (get k m); congruence. Qed.

(** *** Updates of the set *)
(** What the retries store. *)
Lemma updateIS_spec : forall apply ask left i r c, updateIS left i apply ask = (r, c) ->
  (c = [] /\ ((exists s, r = ROk s /\ apply s = ARefuse /\ exists j, fst (ask j) = Some s) \/ r = RPanic \/ exists b, r = RErr b)) \/
  (exists s s' g o f j, fst (ask j) = Some s /\ apply s = AChange s' /\
     let x := mkHS (hs_sel s') (hs_labels s') (hs_tmpl s') (hs_replicas s') g o f in r = ROk x /\ c = [CSet s x]).
Proof.
  intros apply ask. induction left as [| left IH]; intros i r c E; cbn [updateIS] in E.
  - injection E as <- <-. left. split; [reflexivity|]. right. right. exists true. reflexivity.
  - destruct (fst (ask i)) as [s|] eqn:A.
    2: { injection E as <- <-. left. split; [reflexivity|]. right. right. exists false. reflexivity. }
    destruct (apply s) as [| | s'] eqn:P.
    + injection E as <- <-. left. auto.
    + injection E as <- <-. left. split; [reflexivity|]. left. exists s. split; [reflexivity|]. split; [exact P|]. exists i. exact A.
    + destruct (snd (ask i)) as [g o f | |] eqn:U.
      * injection E as <- <-. right. exists s, s', g, o, f, i. auto.
      * exact (IH _ _ _ E).
      * injection E as <- <-. left. split; [reflexivity|]. right. right. exists true. reflexivity.
Qed.

(** When the retries panic or return nil. *)
Lemma updateIS_panic : forall apply ask left i c, updateIS left i apply ask = (RPanic, c) -> exists j s, fst (ask j) = Some s /\ apply s = APanic.
Proof.
  intros apply ask. induction left as [| left IH]; intros i c E; cbn [updateIS] in E; [discriminate|].
  destruct (fst (ask i)) as [s|] eqn:A; [|discriminate]. destruct (apply s) as [| | s'] eqn:P; [| discriminate |].
  - exists i, s. auto.
  - destruct (snd (ask i)); try discriminate. exact (IH _ _ E).
Qed.
Lemma updateIS_nil : forall apply ask left i c, updateIS left i apply ask = (RErr false, c) -> exists j, fst (ask j) = None.
Proof.
  intros apply ask. induction left as [| left IH]; intros i c E; cbn [updateIS] in E; [discriminate|].
  destruct (fst (ask i)) as [s|] eqn:A; [|exists i; exact A]. destruct (apply s) as [| | s']; try discriminate.
  destruct (snd (ask i)); try discriminate. exact (IH _ _ E).
Qed.

(** *** Updates of the machines *)
Lemma updateMach_spec : forall hash ask left i ok c, hash <> "" -> updateMach left i hash ask = (ok, c) ->
  (forall x, In x c -> exists j m, fst (ask j) = Some m /\ x = CMach m (mkHM (hm_name m) (hm_phase m) (hm_owner m) (put hashKey hash (hm_labels m)))) /\
  (ok = true -> (exists j m, fst (ask j) = Some m /\ get key (hm_labels m) = Some hash) \/
                (exists j m, fst (ask j) = Some m /\ c = [CMach m (mkHM (hm_name m) (hm_phase m) (hm_owner m) (put hashKey hash (hm_labels m)))])).
Proof.
  intros hash ask left i ok c N. revert i ok c. induction left as [| left IH]; intros i ok c E; cbn [updateMach] in E.
  - injection E as <- <-. split; [intros x [] | discriminate].
  - destruct (fst (ask i)) as [m|] eqn:A; [|injection E as <- <-; split; [intros x [] | discriminate]].
    destruct (String.eqb_spec (read hashKey (hm_labels m)) hash) as [R | R].
    + injection E as <- <-. split; [intros x []|]. intros _. left. exists i, m. split; [exact A|]. apply read_some; assumption.
    + destruct (snd (ask i)).
      * injection E as <- <-. split; [intros x [<- | []]; exists i, m; auto|]. intros _. right. exists i, m. auto.
      * exact (IH _ _ _ E).
      * injection E as <- <-. split; [intros x [] | discriminate].
Qed.

Lemma labelMachines_writes : forall hash ask l ok c, hash <> "" -> labelMachines hash ask l = (ok, c) ->
  forall x, In x c -> exists n j m, fst (ask n j) = Some m /\ x = CMach m (mkHM (hm_name m) (hm_phase m) (hm_owner m) (put hashKey hash (hm_labels m))).
Proof.
  intros hash ask l ok c N. revert ok c. induction l as [| m l IH]; intros ok c E x I; cbn [labelMachines] in E.
  - injection E as <- <-. destruct I.
  - destruct (negb (activeMach m) || _); [exact (IH _ _ E x I)|].
    destruct (updateMach 4 0 hash (ask (hm_name m))) as (o1, c1) eqn:U. destruct (updateMach_spec _ _ _ _ _ _ N U) as (W & _).
    destruct o1.
    + destruct (labelMachines hash ask l) as (o2, c2) eqn:L. injection E as <- <-. apply in_app_or in I as [I | I].
      * destruct (W x I) as (j & m' & A & B). exists (hm_name m), j, m'. auto.
      * exact (IH _ _ eq_refl x I).
    + injection E as <- <-. destruct (W x I) as (j & m' & A & B). exists (hm_name m), j, m'. auto.
Qed.

Lemma labelMachines_all : forall hash a l c, hash <> "" -> honest a -> labelMachines hash (a_mach a) l = (true, c) ->
  forall m, In m l -> counts m -> labelled hash a c m.
Proof.
  intros hash a l c N Ho. revert c. induction l as [| m l IH]; [intros ? ? ? [] |]. intros c E x [<- | I] C; cbn [labelMachines] in E.
  - destruct (negb (activeMach m) || String.eqb (read hashKey (hm_labels m)) hash) eqn:S.
    + left. apply active_counts in C. rewrite C in S. cbn in S. apply String.eqb_eq in S. apply read_some; assumption.
    + destruct (updateMach 4 0 hash (a_mach a (hm_name m))) as (o1, c1) eqn:U. destruct o1; [|discriminate].
      destruct (labelMachines hash (a_mach a) l) as (o2, c2). injection E as -> <-.
      destruct (updateMach_spec _ _ _ _ _ _ N U) as (_ & W). destruct (W eq_refl) as [(j & m' & A & B) | (j & m' & A & ->)].
      * right. left. exists j, m'. auto.
      * right. right. exists m', (mkHM (hm_name m') (hm_phase m') (hm_owner m') (put hashKey hash (hm_labels m'))). split; [left; reflexivity|].
        cbn [hm_name hm_labels]. split; [exact (Ho _ _ _ A)|]. rewrite get_put. reflexivity.
  - destruct (negb (activeMach m) || _); [exact (IH _ E x I C)|].
    destruct (updateMach 4 0 hash (a_mach a (hm_name m))) as (o1, c1). destruct o1; [|discriminate].
    destruct (labelMachines hash (a_mach a) l) as (o2, c2) eqn:L. injection E as -> <-.
    destruct (IH _ eq_refl x I C) as [H | [H | (b & n & H & H')]].
    + left. exact H.
    + right. left. exact H.
    + right. right. exists b, n. split; [apply in_or_app; right; exact H | exact H'].
Qed.

Lemma labelTemplate_panics : forall h s, labelTemplate h s <> APanic.
Proof. intros h s. unfold labelTemplate. destruct (String.eqb _ _); discriminate. Qed.

Lemma poll_true : forall cond l, poll cond l = true -> exists s, In (Some s) l /\ cond s = true.
Proof.
  intros cond. induction l as [| [s|] l IH]; cbn; intros H; try discriminate.
  destruct (cond s) eqn:C; [exists s; auto|]. destruct (IH H) as (x & I & E). exists x. auto.
Qed.
Lemma poll_reaches : forall cond l s r, (forall x, In x l -> x <> None) -> cond s = true -> poll cond (l ++ Some s :: r) = true.
Proof.
  intros cond. induction l as [| [x|] l IH]; cbn [app poll]; intros s r H C.
  - rewrite C. reflexivity.
  - destruct (cond x); [reflexivity|]. apply IH; [intros y I; apply H; right; exact I | exact C].
  - contradiction (H None); [left|]; reflexivity.
Qed.

(** *** The whole pass *)
Definition stepSet (f : HSet -> App HSet) (c : list Call) (ask : nat -> option HSet * Upd) : Prop :=
  exists s s' g o u j, fst (ask j) = Some s /\ f s = AChange s' /\ c = [CSet s (mkHS (hs_sel s') (hs_labels s') (hs_tmpl s') (hs_replicas s') g o u)].

Lemma updateIS_writes : forall apply ask left i r c, updateIS left i apply ask = (r, c) -> c = [] \/ stepSet apply c ask.
Proof.
  intros apply ask left i r c U. destruct (updateIS_spec _ _ _ _ _ _ U) as [(-> & _) | (s & s' & g & o & f & j & A & B & X & Y)]; [left; reflexivity|].
  right. exists s, s', g, o, f, j. auto.
Qed.

Lemma addHash_writes : forall hash is ms a e tr, addHashKey hash is ms a = (e, tr) ->
  exists c1 c2 c3, tr = c1 ++ c2 ++ c3 /\
    (c1 = [] \/ stepSet (labelTemplate hash) c1 (a_ask1 a)) /\
    (c2 = [] \/ exists ok, labelMachines hash (a_mach a) ms = (ok, c2)) /\
    (c3 = [] \/ stepSet (labelSelector hash) c3 (a_ask3 a) /\ labelMachines hash (a_mach a) ms = (true, c2) /\
       exists s, In (Some s) (a_wait2 a) /\ hs_full s = hs_replicas s).
Proof.
  intros hash is ms a e tr E. unfold addHashKey in E.
  destruct (hs_sel is) as [sel|]; [|injection E as <- <-; exists [], [], []; auto 8].
  destruct (negb (String.eqb (read hashKey sel) "")); [injection E as <- <-; exists [], [], []; auto 8|].
  destruct (updateIS 4 0 (labelTemplate hash) (a_ask1 a)) as (r1, c1) eqn:U1. apply updateIS_writes in U1.
  destruct r1 as [| b | s1].
  - injection E as <- <-. exists c1, [], []. rewrite !app_nil_r. auto 8.
  - injection E as <- <-. exists c1, [], []. rewrite !app_nil_r. auto 8.
  - destruct (_ && _); [injection E as <- <-; exists c1, [], []; rewrite !app_nil_r; auto 8|].
    destruct (labelMachines hash (a_mach a) ms) as (ok, c2) eqn:L.
    destruct ok; cbn [negb] in E; [|injection E as <- <-; exists c1, c2, []; rewrite !app_nil_r; eauto 8].
    destruct (poll (populated (hs_gen s1)) (a_wait2 a)) eqn:P; cbn [negb] in E; [|injection E as <- <-; exists c1, c2, []; rewrite !app_nil_r; eauto 8].
    destruct (updateIS 4 0 (labelSelector hash) (a_ask3 a)) as (r3, c3) eqn:U3. apply updateIS_writes in U3.
    assert (X : tr = c1 ++ c2 ++ c3) by (destruct r3 as [| [] |]; injection E as <- <-; reflexivity).
    exists c1, c2, c3. split; [exact X|]. split; [exact U1|]. split; [eauto|].
    destruct U3 as [U3 | U3]; [left; exact U3|]. right. split; [exact U3|]. split; [reflexivity|].
    destruct (poll_true _ _ P) as (s & I & C). exists s. split; [exact I|]. unfold populated in C. apply andb_true_iff in C as (_ & C). apply Z.eqb_eq, C.
Qed.

Lemma addHash_done : forall hash is ms a s tr, hash <> "" -> addHashKey hash is ms a = (EDone s, tr) ->
  exists sel, hs_sel s = Some sel /\ exists h, get key sel = Some h /\ h <> "".
Proof.
  intros hash is ms a s tr N E. unfold addHashKey in E.
  assert (RD : forall m, read hashKey m <> "" -> exists h, get key m = Some h /\ h <> "").
  { intros m R. unfold read in R. change key with "machine-template-hash". destruct (get "machine-template-hash" m) as [v|]; [eauto | congruence]. }
  destruct (hs_sel is) as [sel|] eqn:SE; [|discriminate].
  destruct (String.eqb_spec (read hashKey sel) "") as [R | R]; cbn [negb] in E.
  2: { injection E as <- <-. exists sel. split; [exact SE|]. apply RD, R. }
  destruct (updateIS 4 0 (labelTemplate hash) (a_ask1 a)) as (r1, c1). destruct r1 as [| b | s1]; try discriminate.
  destruct (_ && _); [discriminate|]. destruct (labelMachines hash (a_mach a) ms) as (ok, c2). destruct (negb ok); [discriminate|].
  destruct (negb (poll _ _)); [discriminate|].
  destruct (updateIS 4 0 (labelSelector hash) (a_ask3 a)) as (r3, c3) eqn:U3. destruct r3 as [| [] | s3]; try discriminate. injection E as -> _.
  destruct (updateIS_spec _ _ _ _ _ _ U3) as [(_ & [(x & X & Y & _) | [X | (b & X)]]) | (x & s' & g & o & f & j & _ & Y & X & _)]; try discriminate.
  - injection X as <-. unfold labelSelector in Y. destruct (hs_sel s) as [sl|]; [|discriminate]. exists sl. split; [reflexivity|]. apply RD.
    destruct (String.eqb_spec (read hashKey (hs_labels s)) hash), (String.eqb_spec (read hashKey sl) hash); cbn in Y; congruence.
  - injection X as ->. cbn [hs_sel]. unfold labelSelector in Y. destruct (hs_sel x) as [sl|]; [|discriminate]. destruct (_ && _) in Y; [discriminate|].
    injection Y as <-. cbn [hs_sel]. eexists. split; [reflexivity|]. exists hash. rewrite get_put. split; [reflexivity | exact N].
Qed.

Lemma addHash_panic : forall hash is ms a tr, addHashKey hash is ms a = (EPanic, tr) ->
  hs_sel is = None \/ (exists j, fst (a_ask3 a j) = None) \/ exists j s, fst (a_ask3 a j) = Some s /\ hs_sel s = None.
Proof.
  intros hash is ms a tr E. unfold addHashKey in E.
  destruct (hs_sel is) as [sel|] eqn:SE; [|left; reflexivity]. right.
  destruct (negb (String.eqb (read hashKey sel) "")); [discriminate|].
  destruct (updateIS 4 0 (labelTemplate hash) (a_ask1 a)) as (r1, c1) eqn:U1. destruct r1 as [| b | s1]; try discriminate.
  { destruct (updateIS_panic _ _ _ _ _ U1) as (j & s & _ & P). contradiction (labelTemplate_panics _ _ P). }
  destruct (_ && _); [discriminate|]. destruct (labelMachines hash (a_mach a) ms) as (ok, c2). destruct (negb ok); [discriminate|].
  destruct (negb (poll _ _)); [discriminate|].
  destruct (updateIS 4 0 (labelSelector hash) (a_ask3 a)) as (r3, c3) eqn:U3. destruct r3 as [| [] | s3]; try discriminate.
  - right. destruct (updateIS_panic _ _ _ _ _ U3) as (j & s & A & P). exists j, s. split; [exact A|]. unfold labelSelector in P.
    destruct (hs_sel s); [destruct (_ && _) in P; discriminate | reflexivity].
  - left. exact (updateIS_nil _ _ _ _ _ U3).
Qed.

Lemma only_put : forall h m, onlyKey (put hashKey h m) m.
Proof. intros h m k N. rewrite get_put. apply String.eqb_neq in N. change key with "machine-template-hash" in N. rewrite N. reflexivity. Qed.

Lemma labelTemplate_change : forall h s s', labelTemplate h s = AChange s' ->
  hs_sel s' = hs_sel s /\ hs_labels s' = hs_labels s /\ hs_tmpl s' = put hashKey h (hs_tmpl s) /\ hs_replicas s' = hs_replicas s.
Proof. intros h s s' E. unfold labelTemplate in E. destruct (String.eqb _ _); [discriminate|]. injection E as <-. auto. Qed.
Lemma labelSelector_change : forall h s s', labelSelector h s = AChange s' ->
  exists sel, hs_sel s = Some sel /\ hs_sel s' = Some (put hashKey h sel) /\ hs_labels s' = put hashKey h (hs_labels s) /\ hs_tmpl s' = hs_tmpl s /\ hs_replicas s' = hs_replicas s.
Proof.
  intros h s s' E. unfold labelSelector in E. destruct (hs_sel s) as [sel|]; [|discriminate]. destruct (_ && _); [discriminate|].
  injection E as <-. exists sel. auto 8.
Qed.

(** A run in which nothing fails. *)
Lemma calm_machines : forall hash ask l, (forall n i, exists m, fst (ask n i) = Some m) -> (forall n i, exists g o f, snd (ask n i) = UOk g o f) ->
  fst (labelMachines hash ask l) = true.
Proof.
  intros hash ask l A B. induction l as [| m l IH]; [reflexivity|]. cbn [labelMachines]. destruct (_ || _); [exact IH|].
  destruct (updateMach 4 0 hash (ask (hm_name m))) as (ok, c) eqn:U.
  assert (O : ok = true).
  { cbn [updateMach] in U. destruct (A (hm_name m) 0%nat) as (x & X). rewrite X in U. destruct (String.eqb _ _); [congruence|].
    destruct (B (hm_name m) 0%nat) as (g & o & f & Y). rewrite Y in U. congruence. }
  subst ok. destruct (labelMachines hash ask l) as (o2, c2). exact IH.
Qed.
