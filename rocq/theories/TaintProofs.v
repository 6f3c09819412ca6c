Require Import List String Ascii Bool Arith Lia.
From Verif Require Import MetaModel MetaSpec MetaProofs TaintModel TaintSpec.
Import ListNotations.
Open Scope string_scope.
Open Scope list_scope.
Open Scope nat_scope.

(* ---- lists ---- *)

Lemma match_dec : forall t x, MatchTaint t x = if keDec x t then true else false.
Proof.
  intros. unfold MatchTaint. destruct (sameKE_spec t x), (keDec x t); congruence.
Qed.

Lemma match_dec' : forall t x, MatchTaint x t = if keDec x t then true else false.
Proof.
  intros. unfold MatchTaint. destruct (sameKE_spec x t), (keDec x t); congruence.
Qed.

Lemma semEq_spec : forall a b, reflect (a = b) (semEq a b).
Proof.
  intros [k v e t] [k' v' e' t']. unfold semEq, timeEq. cbn [tKey tValue tEffect tTime].
  destruct (String.eqb_spec k k'); cbn [andb]; [|constructor; congruence].
  destruct (String.eqb_spec v v'); cbn [andb]; [|constructor; congruence].
  destruct (String.eqb_spec e e'); cbn [andb]; [|constructor; congruence].
  destruct t as [x|], t' as [y|]; try (constructor; congruence).
  destruct (Nat.eqb_spec x y); constructor; congruence.
Qed.

Lemma filter_all : forall (A : Type) (f : A -> bool) l, (forall x, In x l -> f x = true) -> filter f l = l.
Proof.
  intros A f. induction l as [|x l IH]; intros H; cbn [filter]; [reflexivity|].
  rewrite (H x) by (left; reflexivity). f_equal. apply IH. intros y I. apply H. right. exact I.
Qed.

Lemma filter_none : forall (A : Type) (f : A -> bool) l, (forall x, In x l -> f x = false) -> filter f l = [].
Proof.
  intros A f. induction l as [|x l IH]; intros H; cbn [filter]; [reflexivity|].
  rewrite (H x) by (left; reflexivity). apply IH. intros y I. apply H. right. exact I.
Qed.

Lemma alike_nil : forall t l, alike t l = [] -> others t l = l.
Proof.
  intros t. unfold alike, others. induction l as [|x l IH]; cbn [filter]; intros H; [reflexivity|].
  destruct (keDec x t); [discriminate|]. f_equal. auto.
Qed.

Lemma delete_others : forall t l, fst (DeleteTaint l t) = others t l.
Proof.
  intros t. unfold others. induction l as [|x l IH]; cbn [DeleteTaint filter fst]; [reflexivity|].
  destruct (DeleteTaint l t) as [r d]. cbn [fst] in IH. rewrite match_dec.
  destruct (keDec x t); cbn [fst]; congruence.
Qed.

Lemma delete_flag : forall t l, snd (DeleteTaint l t) = true <-> alike t l <> [].
Proof.
  intros t. unfold alike. induction l as [|x l IH]; cbn [DeleteTaint filter snd].
  - split; [discriminate|congruence].
  - destruct (DeleteTaint l t) as [r d]. cbn [snd] in IH. rewrite match_dec.
    destruct (keDec x t); cbn [snd]; [split; [discriminate|reflexivity]|exact IH].
Qed.

Lemma exists_alike : forall t l, TaintExists l t = true <-> alike t l <> [].
Proof.
  intros t. unfold TaintExists, alike. induction l as [|x l IH]; cbn [existsb filter].
  - split; [discriminate|congruence].
  - rewrite match_dec'. destruct (keDec x t); cbn [orb]; [split; [discriminate|reflexivity]|exact IH].
Qed.

Lemma alike_others : forall t l, alike t (others t l) = [].
Proof.
  intros t. unfold alike, others. induction l as [|x l IH]; cbn [filter]; [reflexivity|].
  destruct (keDec x t) eqn:E; [exact IH|]. cbn [filter]. rewrite E. exact IH.
Qed.

Lemma others_idem : forall t l, others t (others t l) = others t l.
Proof. intros t l. apply alike_nil, alike_others. Qed.

Lemma len_split : forall t l, List.length l = List.length (alike t l) + List.length (others t l).
Proof.
  intros t. unfold alike, others. induction l as [|x l IH]; cbn [filter]; [reflexivity|].
  destruct (keDec x t); cbn [List.length]; lia.
Qed.

Lemma others_same : forall t l, others t l = l -> alike t l = [].
Proof. intros t l H. rewrite <- H. apply alike_others. Qed.

Lemma delete_spec : forall t l,
  Removed t l (fst (DeleteTaint l t)) (snd (DeleteTaint l t)).
Proof.
  intros t l. rewrite delete_others. split; [apply alike_others|]. split; [apply others_idem|].
  destruct (snd (DeleteTaint l t)) eqn:F.
  - apply delete_flag in F. split; [discriminate|]. intros H. apply others_same in H. congruence.
  - split; [|reflexivity]. intros _. apply alike_nil.
    destruct (alike t l) eqn:A; [reflexivity|]. exfalso.
    assert (snd (DeleteTaint l t) = true) by (apply delete_flag; congruence). congruence.
Qed.

Lemma remove_spec : forall t l, Removed t l (fst (RemoveTaint l t)) (snd (RemoveTaint l t)).
Proof.
  intros t l. assert (Q : TaintExists l t = snd (DeleteTaint l t)).
  { destruct (TaintExists l t) eqn:E, (snd (DeleteTaint l t)) eqn:F; try reflexivity.
    - apply exists_alike in E. apply delete_flag in E. congruence.
    - apply delete_flag in F. apply exists_alike in F. congruence. }
  pose proof (delete_spec t l) as [A [B C]].
  destruct l as [|x l']; [split; [reflexivity|]; split; [reflexivity|]; cbn; tauto|].
  unfold RemoveTaint. remember (x :: l') as l. rewrite Q.
  destruct (snd (DeleteTaint l t)) eqn:F; cbn [fst snd].
  - split; [exact A|]. split; [exact B|]. exact C.
  - destruct C as [C _]. specialize (C eq_refl). rewrite C in A.
    split; [exact A|]. split; [reflexivity|]. tauto.
Qed.

Lemma addLoop_none : forall t l, addLoop l t = None -> In t l.
Proof.
  intros t. induction l as [|x l IH]; cbn [addLoop]; intros H; [discriminate|].
  destruct (MatchTaint t x).
  - destruct (semEq_spec t x) as [E|N]; [left; auto|].
    destruct (addLoop l t) as [[r u]|]; [discriminate|]. right. auto.
  - destruct (addLoop l t) as [[r u]|]; [discriminate|]. right. auto.
Qed.

Lemma addLoop_some : forall t l r u, addLoop l t = Some (r, u) ->
  ~ In t l /\ others t r = others t l /\
  alike t r = map (fun _ => t) (alike t l) /\ (u = true <-> alike t l <> []) /\
  (u = false -> r = l).
Proof.
  intros t. induction l as [|x l IH]; cbn [addLoop]; intros r u H.
  - injection H as <- <-. split; [intros []|]. split; [reflexivity|]. split; [reflexivity|]. split; [|reflexivity].
    cbn. split; [discriminate|congruence].
  - rewrite match_dec in H. unfold alike, others in *. cbn [filter]. destruct (keDec x t) as [K|K] eqn:KE.
    + destruct (semEq_spec t x) as [E|N]; [discriminate|].
      destruct (addLoop l t) as [[r0 u0]|]; [|discriminate]. injection H as <- <-.
      destruct (IH _ _ eq_refl) as [A [B [C [D E]]]].
      assert (TT : keDec t t = left (eq_refl : ke t = ke t) \/ True) by (right; exact I).
      cbn [filter map]. destruct (keDec t t) as [Z|Z]; [|congruence].
      split; [intros [Q|Q]; [congruence|auto]|]. split; [exact B|]. split; [rewrite C; reflexivity|].
      split; [|discriminate]. split; [discriminate|reflexivity].
    + destruct (addLoop l t) as [[r0 u0]|]; [|discriminate]. injection H as <- <-.
      destruct (IH _ _ eq_refl) as [A [B [C [D E]]]].
      cbn [filter]. rewrite KE. split; [intros [Q|Q]; [congruence|auto]|]. split; [rewrite B; reflexivity|].
      split; [exact C|]. split; [exact D|]. intros U. rewrite (E U). reflexivity.
Qed.

Lemma alike_app : forall t a b, alike t (a ++ b) = alike t a ++ alike t b.
Proof. intros. apply filter_app. Qed.
Lemma others_app : forall t a b, others t (a ++ b) = others t a ++ others t b.
Proof. intros. apply filter_app. Qed.
Lemma alike_self : forall t, alike t [t] = [t].
Proof. intros. unfold alike. cbn [filter]. destruct (keDec t t); [reflexivity|congruence]. Qed.
Lemma others_self : forall t, others t [t] = [].
Proof. intros. unfold others. cbn [filter]. destruct (keDec t t); [reflexivity|congruence]. Qed.

Lemma in_alike : forall t l, In t l -> In t (alike t l).
Proof. intros t l I. apply filter_In. split; [exact I|]. destruct (keDec t t); congruence. Qed.

Lemma add_spec : forall t l, List.length (alike t l) <= 1 ->
  Added t l (fst (AddOrUpdateTaint l t)) (snd (AddOrUpdateTaint l t)).
Proof.
  intros t l L. unfold AddOrUpdateTaint. destruct (addLoop l t) as [[r u]|] eqn:E.
  - destruct (addLoop_some _ _ _ _ E) as [NI [O [A [U S]]]]. cbn [fst snd].
    destruct u.
    + assert (H : alike t l <> []) by (apply U; reflexivity).
      split.
      { rewrite A. destruct (alike t l) as [|y [|z q]]; [congruence|reflexivity|cbn in L; lia]. }
      split; [exact O|]. split; [discriminate|]. intros ->. exfalso.
      apply NI. assert (I : In t (alike t l)).
      { rewrite A. destruct (alike t l) as [|y q]; [congruence|]. left. reflexivity. }
      apply filter_In in I. tauto.
    + rewrite (S eq_refl) in *. assert (H : alike t l = []).
      { destruct (alike t l) eqn:Q; [reflexivity|]. assert (false = true) by (apply U; discriminate). discriminate. }
      unfold Added. rewrite alike_app, others_app, alike_self, others_self, H, app_nil_r.
      split; [reflexivity|]. split; [reflexivity|]. split; [discriminate|].
      intros Q. exfalso. apply NI. rewrite <- Q. apply in_or_app. right. left. reflexivity.
  - apply addLoop_none in E. cbn [fst snd]. split; [|tauto].
    apply in_alike in E. destruct (alike t l) as [|y [|z q]]; [destruct E| |cbn in L; lia].
    destruct E as [->|[]]. reflexivity.
Qed.

(* ---- text ---- *)

Lemma split_none : forall c s, contains c s = false -> split c s = [s].
Proof.
  intros c. induction s as [|x s IH]; cbn [contains split]; intros H; [reflexivity|].
  apply orb_false_iff in H. destruct H as [E H]. rewrite E, (IH H). reflexivity.
Qed.

Lemma split_app : forall c a b, contains c a = false ->
  split c (a ++ String c b) = a :: split c b.
Proof.
  intros c. induction a as [|x a IH]; intros b; cbn [contains append split]; intros H.
  - rewrite Ascii.eqb_refl. reflexivity.
  - apply orb_false_iff in H. destruct H as [E H]. rewrite E.
    change (fun s1 s2 : string => append s1 s2) with append. rewrite (IH b H). reflexivity.
Qed.

Lemma split_nonempty : forall c s, split c s <> [].
Proof.
  intros c s. destruct s as [|x s]; cbn [split]; [discriminate|].
  destruct (Ascii.eqb x c); [discriminate|]. destruct (split c s); discriminate.
Qed.

Lemma split_parts : forall c s p, In p (split c s) -> contains c p = false.
Proof.
  intros c. induction s as [|x s IH]; cbn [split]; intros p I.
  - destruct I as [<-|[]]. reflexivity.
  - destruct (Ascii.eqb x c) eqn:E.
    + destruct I as [<-|I]; [reflexivity|auto].
    + destruct (split c s) as [|q qs] eqn:S.
      * destruct I as [<-|[]]. cbn [contains]. rewrite E. reflexivity.
      * destruct I as [<-|I]; [|apply IH; right; exact I].
        cbn [contains]. rewrite E. apply IH. left. reflexivity.
Qed.

Lemma join_split : forall c s, join (String c "") (split c s) = s.
Proof.
  intros c. induction s as [|x s IH]; cbn [split]; [reflexivity|].
  pose proof (split_nonempty c s) as NE.
  destruct (Ascii.eqb_spec x c) as [E|N].
  - destruct (split c s) as [|q qs] eqn:S; [congruence|].
    change (join (String c "") ("" :: q :: qs)) with (String c (join (String c "") (q :: qs))).
    rewrite IH. subst. reflexivity.
  - destruct (split c s) as [|q qs] eqn:S; [congruence|].
    destruct qs as [|q2 qs].
    + cbn [join] in *. rewrite IH. reflexivity.
    + change (join (String c "") (String x q :: q2 :: qs)) with (String x (join (String c "") (q :: q2 :: qs))).
      rewrite IH. reflexivity.
Qed.

Lemma split_join : forall c l, l <> [] -> (forall p, In p l -> contains c p = false) ->
  split c (join (String c "") l) = l.
Proof.
  intros c. induction l as [|p l IH]; intros NE H; [congruence|].
  destruct l as [|q l].
  - cbn [join]. apply split_none. apply H. left. reflexivity.
  - change (join (String c "") (p :: q :: l)) with (p ++ String c (join (String c "") (q :: l)))%string.
    rewrite split_app by (apply H; left; reflexivity). f_equal. apply IH; [discriminate|].
    intros r I. apply H. right. exact I.
Qed.

Lemma contains_app : forall c a b, contains c (a ++ b) = contains c a || contains c b.
Proof.
  intros c. induction a as [|x a IH]; intros b; cbn [append contains]; [reflexivity|].
  rewrite IH. rewrite orb_assoc. reflexivity.
Qed.

Lemma effect_plain : forall e, knownEffect e = true -> plain e.
Proof.
  intros e H. unfold knownEffect in H. repeat rewrite orb_true_iff in H.
  destruct H as [[H|H]|H]; apply String.eqb_eq in H; subst; repeat split; reflexivity.
Qed.

Lemma known_spec : forall e, knownEffect e = true <->
  (e = "NoSchedule" \/ e = "PreferNoSchedule" \/ e = "NoExecute")%string.
Proof.
  intros e. unfold knownEffect. repeat rewrite orb_true_iff. rewrite !String.eqb_eq. tauto.
Qed.

Lemma taintText_app : forall t,
  taintText t = (tKey t ++ String "=" (tValue t ++ String ":" (tEffect t)))%string.
Proof. reflexivity. Qed.

Lemma parse_text : forall qn lv t, validators qn lv -> validTaint qn lv t ->
  parseTaint qn lv (taintText t) = ROk t.
Proof.
  intros qn lv [k v e tm] [VQ VL] [K [V [E T]]]. cbn [tKey tValue tEffect tTime] in *. subst tm.
  destruct (VQ _ K) as [KE [KC _]]. destruct (VL _ V) as [VE [VC _]].
  apply known_spec in E. destruct (effect_plain _ E) as [EE [EC _]].
  unfold parseTaint. rewrite taintText_app. cbn [tKey tValue tEffect].
  rewrite split_app by exact KE.
  rewrite split_none by (rewrite contains_app; cbn [contains]; rewrite VE, EE; reflexivity).
  rewrite K.
  assert (LN : Nat.eqb (String.length (v ++ String ":" e)%string) 0 = false).
  { destruct v; reflexivity. }
  rewrite LN. cbn [orb negb].
  rewrite split_app by exact VC. rewrite split_none by exact EC. cbn [List.length Nat.eqb negb orb].
  rewrite V, E. reflexivity.
Qed.

Lemma parse_ok : forall qn lv s t, parseTaint qn lv s = ROk t ->
  s = taintText t /\ validTaint qn lv t.
Proof.
  intros qn lv s t. unfold parseTaint.
  pose proof (join_split "=" s) as J.
  destruct (split "=" s) as [|k [|p [|q qs]]]; try discriminate.
  destruct (Nat.eqb (String.length p) 0 || negb (qn k)) eqn:C; [discriminate|].
  apply orb_false_iff in C. destruct C as [_ K]. apply negb_false_iff in K.
  pose proof (join_split ":" p) as J2.
  destruct (split ":" p) as [|v [|e rest]]; try discriminate.
  destruct (negb (Nat.eqb (List.length rest) 0) || negb (lv v)) eqn:C; [discriminate|].
  apply orb_false_iff in C. destruct C as [R V]. apply negb_false_iff in R. apply negb_false_iff in V.
  destruct rest as [|r rest]; [|discriminate].
  destruct (knownEffect e) eqn:E; [|discriminate].
  intros H. injection H as <-. cbn [join append] in *. split.
  - rewrite taintText_app. cbn [tKey tValue tEffect]. rewrite J2. symmetry. exact J.
  - unfold validTaint. cbn [tKey tValue tEffect tTime]. apply known_spec in E. auto.
Qed.

Lemma text_no_comma : forall qn lv t, validators qn lv -> validTaint qn lv t ->
  contains "," (taintText t) = false.
Proof.
  intros qn lv t [VQ VL] [K [V [E _]]].
  destruct (VQ _ K) as [_ [_ A]]. destruct (VL _ V) as [_ [_ B]].
  apply known_spec in E. destruct (effect_plain _ E) as [_ [_ C]].
  rewrite taintText_app. rewrite contains_app. cbn [contains]. rewrite contains_app. cbn [contains].
  rewrite A, B, C. reflexivity.
Qed.

Lemma readAll_map : forall qn lv l, validators qn lv -> Forall (validTaint qn lv) l ->
  readAll (parseTaint qn lv) (map taintText l) = ROk l.
Proof.
  intros qn lv l V F. induction F as [|t l T F IH]; cbn [map readAll]; [reflexivity|].
  rewrite parse_text by assumption. rewrite IH. reflexivity.
Qed.

Lemma set_string : forall qn lv l, validators qn lv -> l <> [] -> Forall (validTaint qn lv) l ->
  VarSet qn lv (VarString l) = ROk l.
Proof.
  intros qn lv l V NE F. unfold VarSet.
  assert (E : VarString l = join (String "," "") (map taintText l)).
  { destruct l; [congruence|reflexivity]. }
  rewrite E, split_join.
  - apply readAll_map; assumption.
  - destruct l; [congruence|discriminate].
  - intros p I. apply in_map_iff in I. destruct I as [t [<- I]]. eapply text_no_comma; [exact V|].
    eapply Forall_forall; eassumption.
Qed.

Lemma string_set : forall qn lv s l, VarSet qn lv s = ROk l ->
  VarString l = s /\ l <> [] /\ Forall (validTaint qn lv) l.
Proof.
  intros qn lv s l. unfold VarSet. pose proof (join_split "," s) as J. pose proof (split_nonempty "," s) as NE.
  assert (G : forall ps r, readAll (parseTaint qn lv) ps = ROk r ->
     map taintText r = ps /\ Forall (validTaint qn lv) r).
  { induction ps as [|p ps IH]; cbn [readAll]; intros r H; [injection H as <-; split; [reflexivity|constructor]|].
    destruct (parseTaint qn lv p) as [| |t] eqn:P; try discriminate.
    destruct (readAll (parseTaint qn lv) ps) as [| |r0] eqn:R; try discriminate.
    injection H as <-. destruct (IH _ eq_refl) as [A B]. apply parse_ok in P. destruct P as [P1 P2].
    cbn [map]. split; [congruence|constructor; assumption]. }
  intros H. apply G in H. destruct H as [A B].
  assert (L : l <> []) by (intros ->; cbn in A; congruence).
  split; [|split; assumption].
  transitivity (join (String "," "") (map taintText l)); [destruct l; [congruence|reflexivity]|].
  rewrite A. exact J.
Qed.

Lemma parse_panic : forall qn lv s, parseTaint qn lv s = RPanic <->
  exists k p, s = (k ++ String "=" p)%string /\ contains "=" k = false /\ contains "=" p = false /\
    contains ":" p = false /\ p <> ""%string /\ qn k = true.
Proof.
  intros qn lv s. split.
  - unfold parseTaint. pose proof (join_split "=" s) as J. pose proof (split_parts "=" s) as SP.
    destruct (split "=" s) as [|k [|p [|q qs]]]; try discriminate.
    destruct (Nat.eqb (String.length p) 0 || negb (qn k)) eqn:C; [discriminate|].
    apply orb_false_iff in C. destruct C as [P K]. apply negb_false_iff in K.
    pose proof (join_split ":" p) as J2. pose proof (split_parts ":" p) as SP2. pose proof (split_nonempty ":" p) as NE.
    destruct (split ":" p) as [|v [|e rest]]; [congruence| |].
    + intros _. cbn [join append] in *. exists k, p. split; [auto|]. split; [apply SP; left; reflexivity|].
      split; [apply SP; right; left; reflexivity|]. split; [rewrite <- J2; apply SP2; left; reflexivity|].
      split; [|exact K]. intros ->. discriminate.
    + destruct (negb (Nat.eqb (List.length rest) 0) || negb (lv v)); [discriminate|].
      destruct (knownEffect e); discriminate.
  - intros [k [p [-> [KE [PE [PC [PN Q]]]]]]]. unfold parseTaint.
    rewrite split_app by exact KE. rewrite split_none by exact PE. rewrite Q.
    destruct p as [|c p]; [congruence|]. cbn [String.length Nat.eqb orb negb].
    rewrite split_none by exact PC. reflexivity.
Qed.

Lemma split_two : forall c s, contains c s = true -> exists a b l, split c s = a :: b :: l.
Proof.
  intros c. induction s as [|x s IH]; cbn [contains split]; intros H; [discriminate|].
  destruct (Ascii.eqb x c).
  - destruct (split c s) as [|b l] eqn:S; [destruct (split_nonempty c s S)|]. eauto.
  - destruct (IH H) as [a [b [l E]]]. rewrite E. eauto.
Qed.

Lemma parse_no_panic : forall qn lv s, validators qn lv -> contains ":" s = true ->
  parseTaint qn lv s <> RPanic.
Proof.
  intros qn lv s [VQ _] C P. apply parse_panic in P. destruct P as [k [p [-> [_ [_ [PC [_ Q]]]]]]].
  destruct (VQ _ Q) as [_ [KC _]]. rewrite contains_app in C. cbn [contains] in C.
  rewrite KC, PC in C. discriminate.
Qed.

Lemma parseTaints_no_panic : forall qn lv spec add rm, validators qn lv ->
  ParseTaintsLoop qn lv spec add rm <> RPanic.
Proof.
  intros qn lv spec. induction spec as [|s spec IH]; intros add rm V; cbn [ParseTaintsLoop]; [discriminate|].
  destruct (contains "=" s && contains ":" s) eqn:C.
  - apply andb_true_iff in C. destruct C as [_ C].
    pose proof (parse_no_panic qn lv s V C) as NP.
    destruct (parseTaint qn lv s) as [| |t]; [congruence|discriminate|].
    destruct (existsb (fun x => sameKE x t) add); [discriminate|]. apply IH. exact V.
  - destruct (dropDash s) as [k|]; [|discriminate].
    destruct (contains ":" k) eqn:D; [|apply IH; exact V].
    destruct (split_two _ _ D) as [a [b [l E]]]. rewrite E. apply IH. exact V.
Qed.

Lemma parseTaints_unique : forall qn lv spec add rm a r, isTaintSet add ->
  ParseTaintsLoop qn lv spec add rm = ROk (a, r) -> isTaintSet a.
Proof.
  intros qn lv. induction spec as [|s spec IH]; intros add rm a r U; cbn [ParseTaintsLoop]; intros H.
  - injection H as <- <-. exact U.
  - destruct (contains "=" s && contains ":" s).
    + destruct (parseTaint qn lv s) as [| |t]; [discriminate|discriminate|].
      destruct (existsb (fun x => sameKE x t) add) eqn:E; [discriminate|].
      apply (IH _ _ _ _) in H; [exact H|]. unfold isTaintSet. rewrite map_app. cbn [map].
      assert (NI : ~ In (ke t) (map ke add)).
      { intros I. apply in_map_iff in I. destruct I as [x [K I]].
        assert (existsb (fun x => sameKE x t) add = true).
        { apply existsb_exists. exists x. split; [exact I|]. destruct (sameKE_spec x t); congruence. }
        congruence. }
      clear - U NI. unfold isTaintSet in U. induction (map ke add) as [|y q IHq]; cbn [app].
      * constructor; [intros []|constructor].
      * inversion U as [|? ? NY UQ]; subst. constructor.
        -- intros I. apply in_app_or in I. destruct I as [I|[I|[]]]; [auto|]. subst. apply NI. left. reflexivity.
        -- apply IHq; [exact UQ|]. intros I. apply NI. right. exact I.
    + destruct (dropDash s) as [k|]; [|discriminate].
      destruct (contains ":" k); [destruct (split ":" k) as [|k' [|e q]]; [discriminate|discriminate|]|];
        eapply IH; eassumption.
Qed.

Lemma dropDash_app : forall s, dropDash (s ++ "-")%string = Some s.
Proof.
  induction s as [|x s IH]; [reflexivity|]. cbn [append dropDash]. rewrite IH.
  destruct s; reflexivity.
Qed.

Lemma nodup_app_r : forall (A : Type) (a b : list A), NoDup (a ++ b) -> forall x, In x b -> ~ In x a.
Proof.
  intros A a b. induction a as [|y a IH]; intros U x I; cbn in *; [tauto|].
  inversion U as [|? ? N U']; subst. intros [->|J]; [apply N, in_or_app; auto|]. now apply (IH U' x I).
Qed.

Lemma parse_asks : forall qn lv, validators qn lv -> forall l add rm, Forall (goodAsk qn lv) l ->
  isTaintSet (add ++ wanted l) ->
  ParseTaintsLoop qn lv (map askText l) add rm = ROk (add ++ wanted l, rm ++ dropped l).
Proof.
  intros qn lv V. induction l as [|a l IH]; intros add rm G U.
  - cbn. now rewrite !app_nil_r.
  - inversion G as [|? ? G1 G2]; subst. cbn [map ParseTaintsLoop].
    destruct a as [t|k e]; cbn [askText wanted dropped flat_map app] in *.
    + fold (taintText t). pose proof (parse_text qn lv t V G1) as P.
      assert (C : contains "=" (taintText t) && contains ":" (taintText t) = true).
      { unfold taintText. rewrite !contains_app. cbn. rewrite !orb_true_r. reflexivity. }
      change (tKey t ++ String "=" (tValue t ++ String ":" (tEffect t)))%string with (taintText t).
      rewrite C, P.
      assert (E : existsb (fun x => sameKE x t) add = false).
      { destruct (existsb (fun x => sameKE x t) add) eqn:E; [|reflexivity]. apply existsb_exists in E.
        destruct E as (x & I & K). destruct (sameKE_spec x t) as [KE|]; [|discriminate]. exfalso.
        unfold isTaintSet in U. rewrite map_app in U. apply (nodup_app_r _ _ _ U (ke t)); [now left|].
        rewrite <- KE. now apply in_map. }
      rewrite E, IH; [now rewrite <- app_assoc | assumption | now rewrite <- app_assoc].
    + destruct G1 as ((K1 & K2 & K3) & (E1 & E2 & E3)). destruct (string_dec e "") as [->|NE].
      * rewrite contains_app, K1, dropDash_app. cbn [contains orb andb]. rewrite K2.
        replace (contains "=" "-") with false by reflexivity. cbn [orb andb].
        rewrite IH by assumption. now rewrite <- app_assoc.
      * rewrite !contains_app, K1, E1. replace (contains "=" ":") with false by reflexivity.
        replace (contains "=" "-") with false by reflexivity. cbn [orb andb].
        replace (k ++ ":" ++ e ++ "-")%string with ((k ++ ":" ++ e) ++ "-")%string
          by (clear; induction k as [|c k IHk]; cbn in *; [reflexivity|rewrite IHk; reflexivity]).
        rewrite dropDash_app, !contains_app. replace (contains ":" ":") with true by reflexivity.
        rewrite orb_true_r. replace (k ++ ":" ++ e)%string with (k ++ String ":" e)%string by reflexivity.
        rewrite split_app by assumption. rewrite split_none by assumption.
        rewrite IH by assumption. now rewrite <- app_assoc.
Qed.

(* ---- through the API server ---- *)

Lemma attempt_never_conflict : forall edit view fail srv, view <> inr Conflict ->
  snd (attempt edit view fail srv) <> Some Conflict.
Proof.
  intros edit view fail srv V. unfold attempt. destruct view as [o|e].
  - destruct (edit (oTaints o)) as [l u]. destruct u; cbn [snd]; [|discriminate].
    unfold UpdateNodeTaints. destruct (update fail srv _) as [s [e|]]; cbn [snd]; discriminate.
  - cbn [snd]. congruence.
Qed.

Lemma no_retry : forall edit a steps srv,
  (forall s, arGet a s <> inr Conflict) ->
  retryOnConflict edit (a :: steps) srv =
  attempt edit (arGet a srv) (arFail a) (arOthers a srv).
Proof.
  intros edit a steps srv H. cbn [retryOnConflict].
  pose proof (attempt_never_conflict edit (arGet a srv) (arFail a) (arOthers a srv) (H srv)) as N.
  destruct (attempt edit (arGet a srv) (arFail a) (arOthers a srv)) as [s [[]|]]; try reflexivity.
  cbn [snd] in N. congruence.
Qed.

(* what one call does, given that it makes one attempt only *)
Lemma call_spec : forall edit a steps srv r e,
  (forall s, arGet a s <> inr Conflict) -> coherent (a :: steps) ->
  retryOnConflict edit (a :: steps) srv = (r, e) ->
  let base := arOthers a srv in
  (e <> None -> r = base) /\
  (e = None -> exists o, arGet a srv = inl o /\
     ((r = base /\ snd (edit (oTaints o)) = false) \/
      (o = base /\ r = mkObj (S (oVersion base)) (fst (edit (oTaints base))) (oRest base) /\
       snd (edit (oTaints base)) = true))).
Proof.
  intros edit a steps srv r e NC C H base. rewrite no_retry in H by exact NC. fold base in H.
  inversion C as [|? ? CA CS]; subst. specialize (CA srv).
  unfold attempt in H. destruct (arGet a srv) as [o|er] eqn:G.
  2: { injection H as <- <-. split; [reflexivity|discriminate]. }
  destruct (edit (oTaints o)) as [l u] eqn:E. destruct u.
  2: { injection H as <- <-. split; [congruence|]. intros _. exists o. split; [reflexivity|]. left.
       rewrite E. auto. }
  unfold UpdateNodeTaints, update in H. destruct (arFail a).
  { injection H as <- <-. split; [reflexivity|discriminate]. }
  cbn [oVersion oTaints oRest] in H.
  destruct (Nat.eqb_spec (oVersion o) (oVersion base)) as [V|V].
  - injection H as <- <-. split; [congruence|]. intros _. exists o. split; [reflexivity|]. right.
    pose proof (CA o eq_refl V) as EB. fold base in EB. split; [exact EB|]. rewrite <- EB, E. auto.
  - injection H as <- <-. split; [reflexivity|discriminate].
Qed.

Lemma nd_filter : forall f l, isTaintSet l -> isTaintSet (filter f l).
Proof.
  intros f. unfold isTaintSet. induction l as [|x l IH]; cbn [filter map]; intros H; [constructor|].
  inversion H as [|? ? NI ND]; subst. destruct (f x); cbn [map]; auto. constructor; auto.
  intros I. apply NI. apply in_map_iff in I. destruct I as [y [E I]]. apply filter_In in I.
  rewrite <- E. apply in_map. tauto.
Qed.

Lemma set_alike : forall t l, isTaintSet l -> List.length (alike t l) <= 1.
Proof.
  intros t l H. assert (N : isTaintSet (alike t l)) by (apply nd_filter; exact H).
  assert (A : forall x, In x (alike t l) -> ke x = ke t).
  { intros x I. apply filter_In in I. destruct I as [_ I]. destruct (keDec x t); congruence. }
  destruct (alike t l) as [|x [|y q]]; cbn; try lia.
  exfalso. unfold isTaintSet in N. cbn [map] in N. inversion N as [|? ? NI _]; subst. apply NI. left.
  rewrite (A x), (A y); cbn; auto.
Qed.

Lemma in_others : forall x t l, ke x <> ke t -> (In x (others t l) <-> In x l).
Proof.
  intros x t l NE. unfold others. rewrite filter_In. destruct (keDec x t); [congruence|]. tauto.
Qed.

Lemma set_from_parts : forall t r, isTaintSet (others t r) -> List.length (alike t r) <= 1 -> isTaintSet r.
Proof.
  intros t. unfold isTaintSet. induction r as [|x r IH]; intros O A; [constructor|].
  unfold alike, others in *. cbn [filter] in *. destruct (keDec x t) as [E|N].
  - cbn [List.length] in A. assert (A0 : filter (fun y => if keDec y t then true else false) r = []).
    { destruct (filter (fun y => if keDec y t then true else false) r); [reflexivity|cbn in A; lia]. }
    cbn [map]. constructor.
    + intros I. apply in_map_iff in I. destruct I as [y [K I]].
      assert (J : In y (filter (fun y => if keDec y t then true else false) r)).
      { apply filter_In. split; [exact I|]. destruct (keDec y t); congruence. }
      rewrite A0 in J. destruct J.
    + apply IH; [exact O|]. rewrite A0. cbn. lia.
  - cbn [map] in *. inversion O as [|? ? NI ND]; subst. constructor.
    + intros I. apply NI. apply in_map_iff in I. destruct I as [y [K I]]. rewrite <- K. apply in_map.
      apply filter_In. split; [exact I|]. destruct (keDec y t); congruence.
    + apply IH; assumption.
Qed.

Lemma added_facts : forall t l r c, isTaintSet l -> Added t l r c ->
  isTaintSet r /\ In t r /\ (forall x, ke x <> ke t -> (In x r <-> In x l)).
Proof.
  intros t l r c S [A [O _]]. split; [|split].
  - apply (set_from_parts t).
    + rewrite O. apply nd_filter. exact S.
    + rewrite A. cbn. lia.
  - assert (I : In t (alike t r)) by (rewrite A; left; reflexivity). apply filter_In in I. tauto.
  - intros x NE. rewrite <- (in_others x t r NE), <- (in_others x t l NE), O. tauto.
Qed.

Lemma editAll_cons : forall f t ts l,
  fst (editAll f (t :: ts) l) = fst (editAll f ts (fst (f l t))) /\
  snd (editAll f (t :: ts) l) = snd (f l t) || snd (editAll f ts (fst (f l t))).
Proof.
  intros f t ts l. unfold editAll. cbn [fold_left]. destruct (f l t) as [l1 u1]. cbn [fst snd orb].
  assert (G : forall ts l u,
    fold_left (fun st t => let '(l, u) := st in let '(l', ok) := f l t in (l', u || ok)) ts (l, u) =
    (fst (editAll f ts l), u || snd (editAll f ts l))).
  { clear. induction ts as [|t ts IH]; intros l u; unfold editAll; cbn [fold_left].
    - cbn [fst snd]. rewrite orb_false_r. reflexivity.
    - destruct (f l t) as [l1 u1]. rewrite !IH. cbn [fst snd orb]. rewrite orb_assoc. reflexivity. }
  rewrite !G. cbn [fst snd orb]. auto.
Qed.

Lemma editAll_add : forall ts l, isTaintSet ts -> isTaintSet l ->
  AllAdded ts l (fst (editAll AddOrUpdateTaint ts l)) /\
  (snd (editAll AddOrUpdateTaint ts l) = false -> fst (editAll AddOrUpdateTaint ts l) = l).
Proof.
  induction ts as [|t ts IH]; intros l TS L.
  - cbn. split; [|reflexivity]. split; [intros t []|]. split; [tauto|exact L].
  - destruct (editAll_cons AddOrUpdateTaint t ts l) as [E1 E2]. rewrite E1, E2. clear E1 E2.
    pose proof (add_spec t l (set_alike t l L)) as AD.
    destruct (added_facts _ _ _ _ L AD) as [S1 [I1 O1]].
    inversion TS as [|? ? NI TS']; subst.
    destruct (IH _ TS' S1) as [[A [B C]] D].
    split.
    + split; [|split; [|exact C]].
      * intros x [<-|I]; [|auto]. apply B; [exact NI|exact I1].
      * intros x NX. cbn [map In] in NX. rewrite B by tauto. apply O1. intros E. apply NX. left. auto.
    + intros F. apply orb_false_iff in F. destruct F as [F1 F2]. rewrite (D F2).
      destruct AD as [_ [_ AD]]. apply AD. exact F1.
Qed.

Lemma removed_in : forall t l r c, Removed t l r c ->
  forall x, In x r <-> In x l /\ ke x <> ke t.
Proof.
  intros t l r c [A [O _]] x. destruct (keDec x t) as [E|N].
  - split; [|tauto]. intros I. assert (J : In x (alike t r)).
    { apply filter_In. split; [exact I|]. destruct (keDec x t); congruence. }
    rewrite A in J. destruct J.
  - rewrite <- (in_others x t r N), O, (in_others x t l N). tauto.
Qed.

Lemma editAll_remove : forall ts l,
  AllRemoved ts l (fst (editAll RemoveTaint ts l)) /\
  (snd (editAll RemoveTaint ts l) = false -> fst (editAll RemoveTaint ts l) = l).
Proof.
  induction ts as [|t ts IH]; intros l.
  - cbn. split; [|reflexivity]. intros x. cbn. tauto.
  - destruct (editAll_cons RemoveTaint t ts l) as [E1 E2]. rewrite E1, E2. clear E1 E2.
    pose proof (remove_spec t l) as R. pose proof (removed_in _ _ _ _ R) as RI.
    destruct (IH (fst (RemoveTaint l t))) as [A D]. split.
    + intros x. rewrite (A x), (RI x). cbn [map In]. split; [intros [[P Q] S]|intros [P Q]].
      * split; [exact P|]. intros [E|E]; [congruence|auto].
      * split; [split; [exact P|]|]; intros E; apply Q; [left; auto|right; exact E].
    + intros F. apply orb_false_iff in F. destruct F as [F1 F2]. rewrite (D F2).
      destruct R as [_ [_ R]]. apply R. exact F1.
Qed.

(* ---- the machine sets of a rollout ---- *)

Lemma add_undisturbed : forall t steps srv, undisturbed steps -> isTaintSet (oTaints srv) ->
  let r := fst (AddOrUpdateTaintOnNode [t] steps srv) in
  In t (oTaints r) /\ oRest r = oRest srv /\ isTaintSet (oTaints r) /\
  (forall x, ke x <> ke t -> (In x (oTaints r) <-> In x (oTaints srv))).
Proof.
  intros t steps srv [a [rest [-> [G [O F]]]]] S r.
  assert (E : r = fst (attempt (editAll AddOrUpdateTaint [t]) (inl srv) None srv)).
  { unfold r, AddOrUpdateTaintOnNode. rewrite no_retry by (intros s; rewrite G; discriminate).
    rewrite G, O, F. reflexivity. }
  destruct (editAll_add [t] (oTaints srv)) as [[A [B C]] D]; [repeat constructor; cbn; tauto|exact S|].
  unfold attempt in E. destruct (editAll AddOrUpdateTaint [t] (oTaints srv)) as [l u]. cbn [fst snd] in *.
  destruct u.
  - unfold UpdateNodeTaints, update in E. cbn [oVersion oTaints oRest] in E. rewrite Nat.eqb_refl in E.
    cbn [fst] in E. rewrite E. cbn [oTaints oRest]. split; [apply A; left; reflexivity|]. split; [reflexivity|].
    split; [exact C|]. intros x NE. apply B. cbn. intros [H|[]]. congruence.
  - cbn [fst] in E. rewrite E. rewrite (D eq_refl) in *. split; [apply A; left; reflexivity|]. split; [reflexivity|].
    split; [exact S|tauto].
Qed.

Lemma taintMachines_all : forall t env ms ns,
  (forall n, undisturbed (env n)) -> (forall n, isTaintSet (oTaints (ns n))) ->
  let ns' := taintMachines t env ms ns in
  (forall n, In n ms -> n <> ""%string -> In t (oTaints (ns' n))) /\
  (forall n, oRest (ns' n) = oRest (ns n)) /\
  (forall n, isTaintSet (oTaints (ns' n))) /\
  (forall n x, ke x <> ke t -> (In x (oTaints (ns' n)) <-> In x (oTaints (ns n)))) /\
  (forall n, ~ In n ms -> ns' n = ns n) /\
  (forall n, In t (oTaints (ns n)) -> In t (oTaints (ns' n))).
Proof.
  intros t env. induction ms as [|m ms IH]; intros ns U S.
  - cbn. intuition.
  - destruct m as [|c m].
    + cbn [taintMachines]. destruct (IH ns U S) as [A [B [C [D [E F]]]]].
      cbv zeta in *. split; [|split; [|split; [|split; [|split]]]]; auto.
      * intros n [H|H] NE; [congruence|auto].
      * intros n NI. apply E. intros H. apply NI. right. exact H.
    + remember (String c m) as m0.
      assert (NE0 : m0 <> ""%string) by (subst; discriminate).
      assert (ST : taintMachines t env (m0 :: ms) ns =
        taintMachines t env ms (setNode m0 (fst (AddOrUpdateTaintOnNode [t] (env m0) (ns m0))) ns)).
      { subst. reflexivity. }
      rewrite ST. clear ST. 
      destruct (add_undisturbed t (env m0) (ns m0) (U m0) (S m0)) as [P [Q [R V]]].
      set (ns1 := setNode m0 (fst (AddOrUpdateTaintOnNode [t] (env m0) (ns m0))) ns).
      assert (N1 : ns1 m0 = fst (AddOrUpdateTaintOnNode [t] (env m0) (ns m0))).
      { unfold ns1, setNode. rewrite String.eqb_refl. reflexivity. }
      assert (N2 : forall n, n <> m0 -> ns1 n = ns n).
      { intros n NE. unfold ns1, setNode. destruct (String.eqb_spec n m0); congruence. }
      assert (S1 : forall n, isTaintSet (oTaints (ns1 n))).
      { intros n. destruct (string_dec n m0) as [EQ|NE]; [subst n; rewrite N1; exact R|rewrite N2; auto]. }
      destruct (IH ns1 U S1) as [A [B [C [D [E F]]]]]. cbv zeta in *.
      split; [|split; [|split; [|split; [|split]]]].
      * intros n [H|H] NE; [|auto]. subst n. apply F. rewrite N1. exact P.
      * intros n. rewrite B. destruct (string_dec n m0) as [EQ|NE]; [subst n; rewrite N1; exact Q|rewrite N2; auto].
      * exact C.
      * intros n x NK. rewrite D by exact NK.
        destruct (string_dec n m0) as [EQ|NE]; [subst n; rewrite N1; apply V; exact NK|rewrite N2; tauto].
      * intros n NI. rewrite E by (intros H; apply NI; right; exact H). apply N2. intros ->. apply NI. left. reflexivity.
      * intros n H. apply F. destruct (string_dec n m0) as [EQ|NE]; [subst n; rewrite N1; exact P|rewrite N2; auto].
Qed.

Lemma remove_undisturbed : forall t steps srv, undisturbed steps ->
  let r := fst (RemoveTaintOffNode (Some srv) [t] steps srv) in
  oRest r = oRest srv /\ (forall x, In x (oTaints r) <-> In x (oTaints srv) /\ ke x <> ke t).
Proof.
  intros t steps srv [a [rest [-> [G [O F]]]]] r. unfold r, RemoveTaintOffNode.
  cbn [existsb]. rewrite orb_false_r. destruct (TaintExists (oTaints srv) t) eqn:X; cbn [negb].
  2: { cbn [fst]. split; [reflexivity|]. intros x. split; [|tauto]. intros I. split; [exact I|]. intros E.
       assert (TaintExists (oTaints srv) t = true).
       { apply exists_alike. intros N. assert (J : In x (alike t (oTaints srv))).
         { apply filter_In. split; [exact I|]. destruct (keDec x t); congruence. }
         rewrite N in J. destruct J. }
       congruence. }
  rewrite no_retry by (intros s; rewrite G; discriminate). rewrite G, O, F.
  destruct (editAll_remove [t] (oTaints srv)) as [A D]. unfold AllRemoved in A. cbn [map In] in A.
  unfold attempt. destruct (editAll RemoveTaint [t] (oTaints srv)) as [l u]. cbn [fst snd] in *.
  assert (A' : forall x, In x l <-> In x (oTaints srv) /\ ke x <> ke t).
  { intros x. rewrite A. split; intros [P Q]; (split; [exact P|]); [intros E; apply Q; left; auto|].
    intros [E|[]]. congruence. }
  destruct u.
  - unfold UpdateNodeTaints, update. cbn [oVersion oTaints oRest]. rewrite Nat.eqb_refl. cbn [fst oRest oTaints].
    auto.
  - cbn [fst]. rewrite (D eq_refl) in A'. auto.
Qed.

Lemma untaintMachines_all : forall t env ms ns,
  (forall n, undisturbed (env n)) ->
  forall got, (forall n, got n = Some (ns n)) -> NoDup ms ->
  let ns' := untaintMachines t got env ms ns in
  (forall n, In n ms -> n <> ""%string -> forall x, In x (oTaints (ns' n)) <-> In x (oTaints (ns n)) /\ ke x <> ke t) /\
  (forall n, oRest (ns' n) = oRest (ns n)) /\
  (forall n, ~ In n ms -> ns' n = ns n).
Proof.
  intros t env ms ns U got G ND.
  assert (GEN : forall ms (cur : Nodes), NoDup ms -> (forall n, In n ms -> cur n = ns n) ->
    let ns' := untaintMachines t got env ms cur in
    (forall n, In n ms -> n <> ""%string -> forall x, In x (oTaints (ns' n)) <-> In x (oTaints (ns n)) /\ ke x <> ke t) /\
    (forall n, oRest (ns' n) = oRest (cur n)) /\
    (forall n, ~ In n ms -> ns' n = cur n)).
  { clear ms ND. induction ms as [|m ms IH]; intros cur ND C.
    - cbn. split; [intros n []|]. auto.
    - inversion ND as [|? ? NI ND']; subst. destruct m as [|c m].
      + cbn [untaintMachines]. destruct (IH cur ND' (fun n H => C n (or_intror H))) as [A [B D]]. cbv zeta in *.
        split; [|split; auto]. { intros n [H|H] NE; [congruence|auto]. }
        intros n N. apply D. intros H. apply N. right. exact H.
      + remember (String c m) as m0.
        assert (ST : untaintMachines t got env (m0 :: ms) cur =
          untaintMachines t got env ms (setNode m0 (fst (RemoveTaintOffNode (Some (ns m0)) [t] (env m0) (cur m0))) cur)).
        { subst m0. cbn [untaintMachines]. rewrite G. reflexivity. }
        rewrite ST. clear ST. rewrite (C m0 (or_introl eq_refl)).
        destruct (remove_undisturbed t (env m0) (ns m0) (U m0)) as [P Q].
        set (cur1 := setNode m0 (fst (RemoveTaintOffNode (Some (ns m0)) [t] (env m0) (ns m0))) cur).
        assert (N1 : cur1 m0 = fst (RemoveTaintOffNode (Some (ns m0)) [t] (env m0) (ns m0))).
        { unfold cur1, setNode. rewrite String.eqb_refl. reflexivity. }
        assert (N2 : forall n, n <> m0 -> cur1 n = cur n).
        { intros n NE. unfold cur1, setNode. destruct (String.eqb_spec n m0); congruence. }
        destruct (IH cur1 ND') as [A [B D]].
        { intros n H. rewrite N2; [apply C; right; exact H|]. intros ->. contradiction. }
        cbv zeta in *. split; [|split].
        * intros n [H|H] NE; [|auto]. subst n. rewrite D by exact NI. rewrite N1. exact Q.
        * intros n. rewrite B. destruct (string_dec n m0) as [EQ|NE]; [|rewrite N2; auto].
          subst n. rewrite N1, P. rewrite (C m0 (or_introl eq_refl)). reflexivity.
        * intros n N. rewrite D by (intros H; apply N; right; exact H). apply N2. intros ->. apply N. left. reflexivity. }
  apply GEN; auto.
Qed.

(* Requests with additions and removals. *)
Lemma byKey_in : forall l k x, In x (fst (DeleteTaintsByKey l k)) <-> In x l /\ tKey x <> k.
Proof.
  induction l as [|y l IH]; intros k x; cbn [DeleteTaintsByKey]; [cbn; tauto|]. specialize (IH k x). destruct (DeleteTaintsByKey l k) as (r, d). cbn [fst] in IH.
  destruct (String.eqb_spec k (tKey y)) as [->|N]; cbn [fst In]; rewrite IH.
  - split; [intros (A & B); auto | intros ([<-|A] & B); [destruct (B eq_refl) | auto]].
  - split; [intros [<-|(A & B)]; auto | intros ([->|A] & B); auto].
Qed.
Lemma byKey_flag : forall l k, snd (DeleteTaintsByKey l k) = true <-> exists x, In x l /\ tKey x = k.
Proof.
  induction l as [|y l IH]; intros k; cbn [DeleteTaintsByKey]; [split; [discriminate | intros (x & [] & _)]|]. specialize (IH k). destruct (DeleteTaintsByKey l k) as (r, d). cbn [snd] in IH.
  destruct (String.eqb_spec k (tKey y)) as [->|N]; cbn [snd].
  - split; [intros _; exists y; split; [left; reflexivity | reflexivity] | reflexivity].
  - rewrite IH. split; [intros (x & I & E); exists x; split; [right; exact I | exact E] | intros (x & [<-|I] & E); [congruence | eauto]].
Qed.
Lemma byKey_order : forall l k, fst (DeleteTaintsByKey l k) = filter (fun x => negb (String.eqb (tKey x) k)) l.
Proof.
  induction l as [|y l IH]; intros k; cbn [DeleteTaintsByKey filter]; [reflexivity|]. specialize (IH k). destruct (DeleteTaintsByKey l k) as (r, d). cbn [fst] in IH. subst r.
  rewrite (String.eqb_sym k). destruct (String.eqb (tKey y) k); reflexivity.
Qed.

Definition cut (t : Taint) (l : list Taint) : list Taint * bool := if Nat.ltb 0 (String.length (tEffect t)) then DeleteTaint l t else DeleteTaintsByKey l (tKey t).
Lemma in_alike_iff : forall t l, alike t l <> [] <-> exists x, In x l /\ ke x = ke t.
Proof.
  intros t l. unfold alike. split.
  - intros H. destruct (filter _ l) as [|x r] eqn:E; [congruence|]. assert (I : In x (filter (fun x => if keDec x t then true else false) l)) by (rewrite E; left; reflexivity).
    apply filter_In in I as (I & K). destruct (keDec x t); [eauto | discriminate].
  - intros (x & I & E) H. assert (J : In x (filter (fun x => if keDec x t then true else false) l)) by (apply filter_In; split; [exact I | destruct (keDec x t); [reflexivity | contradiction]]).
    rewrite H in J. destruct J.
Qed.
Lemma ke_parts : forall a b : Taint, ke a = ke b <-> tKey a = tKey b /\ tEffect a = tEffect b.
Proof. intros a b. unfold ke. split; [intros [= H K]; auto | intros (H & K); congruence]. Qed.
Lemma cut_in : forall t l x, In x (fst (cut t l)) <-> In x l /\ ~ meant t x.
Proof.
  intros t l x. unfold cut, meant. destruct (tEffect t) as [|c e] eqn:E.
  - cbn. rewrite byKey_in. split; [intros (A & B); split; [exact A | intros (C & _); contradiction] | intros (A & B); split; [exact A | intros C; apply B; auto]].
  - replace (Nat.ltb 0 (String.length (String c e))) with true by reflexivity. rewrite delete_others. unfold others. rewrite filter_In.
    destruct (keDec x t) as [K|K].
    + apply ke_parts in K as (K1 & K2). split; [intros (_ & D); discriminate | intros (_ & D); destruct D; split; [exact K1 | right; congruence]].
    + split; [intros (A & _); split; [exact A|]; intros (C & [D|D]); [discriminate | apply K, ke_parts; split; congruence] | intros (A & _); auto].
Qed.
Lemma cut_flag : forall t l, snd (cut t l) = true <-> exists x, In x l /\ meant t x.
Proof.
  intros t l. unfold cut, meant. destruct (tEffect t) as [|c e] eqn:E.
  - cbn. rewrite byKey_flag. split; intros (x & I & K); exists x; [auto | tauto].
  - replace (Nat.ltb 0 (String.length (String c e))) with true by reflexivity. rewrite delete_flag, in_alike_iff. split; intros (x & I & K); exists x; (split; [exact I|]).
    + apply ke_parts in K as (K1 & K2). split; [exact K1 | right; congruence].
    + destruct K as (K1 & [K2|K2]); [discriminate | apply ke_parts; split; congruence].
Qed.

Lemma deleteTaints_cut : forall rm l, deleteTaints rm l = fold_left (fun st t => let '(l, errs, _) := st in let '(l', d) := cut t l in (l', if d then errs else S errs, d)) rm (l, 0, false).
Proof. reflexivity. Qed.
Lemma delete_all : forall rm l n d l' n' d', fold_left (fun st t => let '(l, errs, _) := st in let '(l', d) := cut t l in (l', if d then errs else S errs, d)) rm (l, n, d) = (l', n', d') ->
  (forall x, In x l' <-> In x l /\ forall t, In t rm -> ~ meant t x) /\ n <= n' <= n + List.length rm /\
  (n' = n <-> forall a t b, rm = a ++ t :: b -> exists x, In x l /\ meant t x /\ forall t', In t' a -> ~ meant t' x) /\
  (rm = [] -> d' = d) /\ (rm <> [] -> n' = n -> d' = true) /\ (isTaintSet l -> isTaintSet l').
Proof.
  induction rm as [|t rm IH]; intros l n d l' n' d' H.
  - cbn in H. injection H as <- <- <-. split; [intros x; split; [intros I; split; [exact I | intros t []] | tauto]|]. split; [cbn; lia|]. split; [split; [intros _ a t b E; destruct a; discriminate | reflexivity]|].
    split; [reflexivity|]. split; [congruence | auto].
  - cbn [fold_left] in H. destruct (cut t l) as (l1, d1) eqn:C. destruct (IH _ _ _ _ _ _ H) as (I1 & I2 & I3 & I4 & I5 & I6).
    assert (X := cut_in t l). rewrite C in X. cbn [fst] in X. assert (Y := cut_flag t l). rewrite C in Y. cbn [snd] in Y.
    split; [|split; [|split; [|split; [|split]]]].
    + intros x. rewrite I1, X. split; [intros ((A & B) & D); split; [exact A | intros t' [<-|J]; auto] | intros (A & B); split; [split; [exact A | apply B; left; reflexivity] | intros t' J; apply B; right; exact J]].
    + cbn [List.length]. destruct d1; lia.
    + split.
      * intros E a t' b R. destruct a as [|a0 a]; cbn in R.
        -- assert (t' = t) as -> by congruence. destruct d1; [destruct (proj1 Y eq_refl) as (x & J & K); exists x; split; [exact J | split; [exact K | intros t'' []]] | lia].
        -- assert (a0 = t /\ rm = a ++ t' :: b) as (-> & R') by (split; congruence). assert (E' : n' = (if d1 then n else S n)) by (destruct d1; lia).
           destruct (proj1 I3 E' a t' b R') as (x & J & K & L). apply X in J as (J & N). exists x. split; [exact J|]. split; [exact K|]. intros t'' [<-|Q]; auto.
      * intros A. destruct (A [] t rm eq_refl) as (x & J & K & _). assert (d1 = true) as -> by (apply Y; eauto). apply I3. intros a t' b R.
        destruct (A (t :: a) t' b) as (x' & J' & K' & L'); [rewrite R; reflexivity|]. exists x'. split; [apply X; split; [exact J' | apply L'; left; reflexivity]|]. split; [exact K'|]. intros t'' Q. apply L'. right. exact Q.
    + discriminate.
    + intros _ E. destruct d1; [|lia]. destruct rm as [|t2 rm]; [apply I4; reflexivity | apply I5; [discriminate | exact E]].
    + intros S. apply I6. assert (l1 = fst (cut t l)) as -> by (rewrite C; reflexivity). unfold cut. destruct (Nat.ltb 0 _); [rewrite delete_others | rewrite byKey_order]; apply nd_filter, S.
Qed.

Lemma add_all : forall old new r, fold_left (fun acc o => if existsb (fun t => MatchTaint t o) acc then acc else acc ++ [o]) old new = r -> isTaintSet old ->
  (forall x, In x r <-> In x new \/ In x old /\ ~ In (ke x) (map ke new)) /\ (isTaintSet new -> isTaintSet r) /\
  List.length r + List.length (filter (fun o => existsb (fun t => MatchTaint t o) new) old) = List.length new + List.length old.
Proof.
  induction old as [|o old IH]; intros new r H S; [cbn in H; subst r; split; [intros x; cbn; tauto | split; [auto | cbn; lia]]|].
  cbn [fold_left] in H. unfold isTaintSet in S. cbn [map] in S. apply NoDup_cons_iff in S as (S1 & S2).
  assert (M : existsb (fun t => MatchTaint t o) new = true <-> In (ke o) (map ke new)).
  { rewrite existsb_exists, in_map_iff. split; intros (x & A & B); exists x.
    - rewrite match_dec' in B. destruct (keDec x o); [auto | discriminate].
    - split; [exact B|]. rewrite match_dec'. destruct (keDec x o); [reflexivity | contradiction]. }
  destruct (existsb (fun t => MatchTaint t o) new) eqn:E; cbn [filter]; rewrite E.
  - destruct (IH _ _ H S2) as (I1 & I2 & I3). split; [|split; [exact I2 | cbn [List.length]; lia]]. intros x. rewrite I1. cbn [In]. assert (K := proj1 M eq_refl).
    split; [tauto|]. intros [A|([<-|A] & B)]; [auto | contradiction | auto].
  - destruct (IH _ _ H S2) as (I1 & I2 & I3). assert (K : ~ In (ke o) (map ke new)) by (intros Q; apply M in Q; discriminate). split; [|split].
    + intros x. rewrite I1, in_app_iff, map_app, in_app_iff. cbn [In map]. split.
      * intros [[A|[<-|[]]]|(A & B)]; tauto.
      * intros [A|([<-|A] & B)]; [tauto | tauto|]. right. split; [exact A|]. intros [D|[D|[]]]; [contradiction|]. destruct S1. rewrite D. apply in_map, A.
    + intros N. apply I2. unfold isTaintSet. rewrite map_app. cbn [map]. unfold isTaintSet in N. clear - N K. induction (map ke new) as [|a m IH]; cbn; [repeat constructor; tauto|].
      apply NoDup_cons_iff in N as (N1 & N2). constructor; [rewrite in_app_iff; cbn in *; intuition congruence | apply IH; [cbn in K; tauto | exact N2]].
    + rewrite app_length in I3. cbn [List.length] in *.
      replace (filter (fun o0 => existsb (fun t => MatchTaint t o0) (new ++ [o])) old) with (filter (fun o0 => existsb (fun t => MatchTaint t o0) new) old) in I3; [lia|].
      apply filter_ext_in. intros y Y. rewrite existsb_app. cbn [existsb]. rewrite match_dec'. destruct (keDec o y) as [Q|Q]; [destruct S1; rewrite Q; apply in_map, Y | rewrite !orb_false_r; reflexivity].
Qed.

Lemma added_iff : forall old add, isTaintSet old -> isTaintSet add ->
  snd (addTaints old add) = true <-> exists t, In t add /\ ~ In (ke t) (map ke old).
Proof.
  intros old add So Sa. unfold addTaints. cbn [snd]. destruct (add_all old add _ eq_refl So) as (_ & _ & L). remember (fold_left _ old add) as r.
  assert (B : List.length (filter (fun o => existsb (fun t => MatchTaint t o) add) old) = List.length (filter (fun t => existsb (fun o => MatchTaint t o) old) add)).
  { apply Nat.le_antisymm.
    - rewrite <- (map_length ke), <- (map_length ke (filter (fun t => existsb _ old) add)). apply NoDup_incl_length; [apply nd_filter, So|].
      intros k K. apply in_map_iff in K as (o & <- & K). apply filter_In in K as (I & K). apply existsb_exists in K as (t & J & M). apply in_map_iff. exists t.
      rewrite match_dec' in M. destruct (keDec t o) as [Q|]; [|discriminate]. split; [exact Q|]. apply filter_In. split; [exact J|]. apply existsb_exists. exists o. split; [exact I|]. rewrite match_dec'. destruct (keDec t o); [reflexivity | contradiction].
    - rewrite <- (map_length ke), <- (map_length ke (filter (fun o => existsb _ add) old)). apply NoDup_incl_length; [apply nd_filter, Sa|].
      intros k K. apply in_map_iff in K as (o & <- & K). apply filter_In in K as (I & K). apply existsb_exists in K as (t & J & M). apply in_map_iff. exists t.
      rewrite match_dec' in M. destruct (keDec o t) as [Q|]; [|discriminate]. split; [congruence|]. apply filter_In. split; [exact J|]. apply existsb_exists. exists o. split; [exact I|]. rewrite match_dec'. destruct (keDec o t); [reflexivity | contradiction]. }
  assert (F : forall l, List.length (filter (fun t => existsb (fun o => MatchTaint t o) old) l) <= List.length l /\
     (List.length (filter (fun t => existsb (fun o => MatchTaint t o) old) l) = List.length l <-> forall t, In t l -> In (ke t) (map ke old))).
  { induction l as [|t l (IH1 & IH2)]; [cbn; split; [lia | split; [intros _ t [] | reflexivity]]|]. cbn [filter].
    assert (M : existsb (fun o => MatchTaint t o) old = true <-> In (ke t) (map ke old)).
    { rewrite existsb_exists, in_map_iff. split; intros (x & A & C); exists x.
      - rewrite match_dec' in C. destruct (keDec t x); [auto | discriminate].
      - split; [exact C|]. rewrite match_dec'. destruct (keDec t x) as [|N]; [reflexivity | symmetry in A; contradiction]. }
    destruct (existsb _ old); cbn [List.length]; (split; [lia|]).
    - split; [intros E x [<-|I]; [apply M; reflexivity | apply IH2; [lia | exact I]] | intros H; f_equal; apply IH2; intros x I; apply H; right; exact I].
    - split; [lia|]. intros H. assert (false = true) by (apply M, H; left; reflexivity). discriminate. }
  rewrite negb_true_iff, Nat.eqb_neq. destruct (F add) as (F1 & F2). split.
  - intros N. assert (G : List.length (filter (fun t => existsb (fun o => MatchTaint t o) old) add) <> List.length add) by lia.
    destruct (Forall_Exists_dec (fun t => In (ke t) (map ke old)) (fun t => in_dec (fun a b : string * string => ltac:(decide equality; apply string_dec)) (ke t) (map ke old)) add) as [A|A].
    + destruct G. apply F2. apply Forall_forall, A.
    + apply Exists_exists in A. exact A.
  - intros (t & I & N) E. apply N, F2; [lia | exact I].
Qed.

(* Every node is treated as if it were the only one. *)
Lemma setNode_same : forall n o ns, setNode n o ns n = o.
Proof. intros. unfold setNode. rewrite String.eqb_refl. reflexivity. Qed.
Lemma setNode_other : forall n m o ns, n <> m -> setNode m o ns n = ns n.
Proof. intros n m o ns H. unfold setNode. destruct (String.eqb_spec n m); congruence. Qed.

Lemma taintMachines_notin : forall t env ms ns n, ~ In n ms -> taintMachines t env ms ns n = ns n.
Proof.
  intros t env ms. induction ms as [|m ms IH]; intros ns n NI; [reflexivity|].
  assert (NI' : ~ In n ms) by (intros H; apply NI; right; exact H). assert (NE : n <> m) by (intros ->; apply NI; left; reflexivity).
  destruct m as [|c m]; cbn [taintMachines]; rewrite IH by exact NI'; [reflexivity | apply setNode_other, NE].
Qed.
Lemma untaintMachines_notin : forall t got env ms ns n, ~ In n ms -> untaintMachines t got env ms ns n = ns n.
Proof.
  intros t got env ms. induction ms as [|m ms IH]; intros ns n NI; [reflexivity|].
  assert (NI' : ~ In n ms) by (intros H; apply NI; right; exact H). assert (NE : n <> m) by (intros ->; apply NI; left; reflexivity).
  destruct m as [|c m]; cbn [untaintMachines]; [apply IH, NI'|]. destruct (got _); rewrite IH by exact NI'; [apply setNode_other, NE | reflexivity].
Qed.

Lemma taintMachines_alone : forall t env ms ns n, NoDup ms -> In n ms ->
  taintMachines t env ms ns n = taintMachines t env [n] ns n.
Proof.
  intros t env ms. induction ms as [|m ms IH]; intros ns n ND I; [destruct I|]. inversion ND as [|? ? NI ND']; subst.
  destruct I as [<-|I].
  - destruct m as [|c m]; cbn [taintMachines]; rewrite taintMachines_notin by exact NI; reflexivity.
  - assert (NE : n <> m) by (intros ->; contradiction).
    assert (E : forall ns1 : Nodes, ns1 n = ns n -> taintMachines t env [n] ns1 n = taintMachines t env [n] ns n).
    { intros ns1 E. destruct n as [|c n]; cbn [taintMachines]; [exact E | rewrite !setNode_same, E; reflexivity]. }
    destruct m as [|c m].
    + change (taintMachines t env ("" :: ms) ns) with (taintMachines t env ms ns). apply IH; assumption.
    + change (taintMachines t env (String c m :: ms) ns) with (taintMachines t env ms (setNode (String c m) (fst (AddOrUpdateTaintOnNode [t] (env (String c m)) (ns (String c m)))) ns)).
      rewrite IH by assumption. apply E. apply setNode_other, NE.
Qed.
Lemma untaintMachines_alone : forall t got env ms ns n, NoDup ms -> In n ms ->
  untaintMachines t got env ms ns n = untaintMachines t got env [n] ns n.
Proof.
  intros t got env ms. induction ms as [|m ms IH]; intros ns n ND I; [destruct I|]. inversion ND as [|? ? NI ND']; subst.
  destruct I as [<-|I].
  - destruct m as [|c m]; cbn [untaintMachines]; [apply untaintMachines_notin, NI|]. destruct (got _); apply untaintMachines_notin, NI.
  - assert (NE : n <> m) by (intros ->; contradiction).
    assert (E : forall ns1 : Nodes, ns1 n = ns n -> untaintMachines t got env [n] ns1 n = untaintMachines t got env [n] ns n).
    { intros ns1 E. destruct n as [|c n]; cbn [untaintMachines]; [exact E|]. destruct (got _); [rewrite !setNode_same, E; reflexivity | exact E]. }
    destruct m as [|c m]; cbn [untaintMachines]; [apply IH; assumption|].
    destruct (got (String c m)); rewrite IH by assumption; apply E; [apply setNode_other, NE | reflexivity].
Qed.

Lemma each_alone : forall t got env markOk s ns n, NoDup (tsNodes s) -> In n (tsNodes s) ->
  snd (taintSet t env markOk s ns) n = snd (taintSet t env markOk (mkTSet (tsMarked s) [n]) ns) n /\
  snd (untaintSet t got env markOk s ns) n = snd (untaintSet t got env markOk (mkTSet (tsMarked s) [n]) ns) n.
Proof.
  intros t got env markOk s ns n ND I. unfold taintSet, untaintSet. cbn [tsMarked tsNodes].
  destruct (tsMarked s); cbn [snd]; split; auto using taintMachines_alone, untaintMachines_alone.
Qed.
