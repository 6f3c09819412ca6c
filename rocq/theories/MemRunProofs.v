(* C115, C116: the theorems of MemProofs.v for the programs of the two
   processes. *)
Require Import List String Arith Bool PeanoNat Lia.
From Verif Require Import MemModel MemMcModel MemMcmModel MemSpec MemProofs.
Import ListNotations.
Open Scope string_scope.

Definition none (p : Prim) : bool := false.
Definition nofz (x : string) : bool := false.
Definition set_only (x : string) : bool := String.eqb x "set".

Lemma mc_checked : checked true none nofz mc_programs = true.
Proof. vm_cast_no_check (eq_refl true). Qed.
Lemma mcm_checked : checked false copy_statement set_only mcm_programs = true.
Proof. vm_cast_no_check (eq_refl true). Qed.

Lemma copying_none : forall w m, copying none w m = false.
Proof. intros w [i c|i n|b]; simpl; auto. unfold next_copies. destruct (kont w i) as [|[]]; auto. Qed.
Lemma copying_iff : forall w m, copying copy_statement w m = true <-> copies_template w m.
Proof.
  intros w m; split.
  - destruct m as [i c|i n|b]; simpl; try discriminate. unfold next_copies.
    destruct (kont w i) as [|[|p| | |] r] eqn:K; try discriminate. intros H. exists i, c, p, r; auto.
  - intros [i [c [p [r [M [K H]]]]]]. subst m. simpl. unfold next_copies. now rewrite K.
Qed.

Lemma store_length : forall h l n, List.length (store h l n) = List.length h.
Proof. induction h as [|[o m] r IH]; intros [|l] n; simpl; auto. Qed.

(* ---- runs ---- *)
Lemma run_snoc : forall ps a m w w1 tr1 w2 ev, run ps a w = Some (w1, tr1) ->
  move ps m w1 = Some (w2, ev) -> run ps (a ++ [m])%list w = Some (w2, (tr1 ++ ev)%list).
Proof.
  intros ps. induction a as [|x r IH]; intros m w w1 tr1 w2 ev R M; simpl in *.
  - inversion R; subst. rewrite M. simpl. now rewrite app_nil_r.
  - destruct (move ps x w) as [[w' e']|]; try discriminate.
    destruct (run ps r w') as [[w'' e'']|] eqn:Q; try discriminate. inversion R; subst.
    rewrite (IH _ _ _ _ _ _ Q M). now rewrite app_assoc.
Qed.

Lemma run_keeps : forall ps (P : Owner * Node -> Owner * Node -> Prop),
  (forall c, P c c) -> (forall a b c, P a b -> P b c -> P a c) ->
  (forall ms w tr m w' ev, run ps ms world0 = Some (w, tr) -> move ps m w = Some (w', ev) ->
     forall l n, nth_error (heap w) l = Some (Cache, n) ->
     exists n', nth_error (heap w') l = Some (Cache, n') /\ P (Cache, n) (Cache, n')) ->
  forall ms2 ms1 w1 tr1 w2 tr2, run ps ms1 world0 = Some (w1, tr1) -> run ps ms2 w1 = Some (w2, tr2) ->
  forall l n, nth_error (heap w1) l = Some (Cache, n) ->
  exists n', nth_error (heap w2) l = Some (Cache, n') /\ P (Cache, n) (Cache, n').
Proof.
  intros ps P RF TR ST. induction ms2 as [|m r IH]; intros ms1 w1 tr1 w2 tr2 R1 R2 l n N; simpl in R2.
  - inversion R2; subst. exists n; auto.
  - destruct (move ps m w1) as [[w' ev]|] eqn:M; try discriminate.
    destruct (run ps r w') as [[w'' ev']|] eqn:Q; try discriminate. inversion R2; subst.
    destruct (ST _ _ _ _ _ _ R1 M l n N) as [n1 [N1 P1]].
    destruct (IH _ _ _ _ _ (run_snoc _ _ _ _ _ _ _ _ R1 M) Q l n1 N1) as [n2 [N2 P2]].
    exists n2; split; auto. eapply TR; eauto.
Qed.

(* ---- the machine controller ---- *)
Lemma mc_cache : forall ms1 ms2 w1 tr1 w2 tr2,
  run mc_programs ms1 world0 = Some (w1, tr1) -> run mc_programs ms2 w1 = Some (w2, tr2) ->
  forall l n, in_cache w1 l n -> in_cache w2 l n.
Proof.
  intros ms1 ms2 w1 tr1 w2 tr2 R1 R2 l n N.
  destruct (run_keeps mc_programs eq) with (ms2 := ms2) (ms1 := ms1) (w1 := w1) (tr1 := tr1)
    (w2 := w2) (tr2 := tr2) (l := l) (n := n) as [n' [N' E]]; auto.
  - intros; congruence.
  - intros ms w tr m w' ev R M k nn K. exists nn; split; auto.
    eapply (cache_step _ _ _ _ _ _ _ _ _ _ mc_checked R M (copying_none w m)); auto.
  - inversion E; subst; auto.
Qed.

Lemma move_new_cache : forall ps m w w' ev, move ps m w = Some (w', ev) ->
  (exists b, m = Inform b /\ closed (List.length (heap w)) b = true /\
             heap w' = (heap w ++ owned Cache b)%list) \/
  (forall l n', nth_error (heap w') l = Some (Cache, n') -> exists n, nth_error (heap w) l = Some (Cache, n)).
Proof.
  intros ps m [h en ko] w' ev M. destruct m as [i c|i n|b]; simpl in M.
  - right. destruct (wexec i c (en i) (ko i) h) as [[[[e k] h1] evs]|] eqn:W; try discriminate.
    inversion M; subst. simpl. intros l n' N. destruct (ko i) as [|p r]; simpl in W; try discriminate.
    destruct p as [|p| | |]; try (destruct c; try discriminate; inversion W; subst; eauto; fail).
    destruct (pexec i p c (en i) h) as [[[e1 h1'] ev1]|] eqn:X; try discriminate. inversion W; subst.
    assert (ST : forall k m, nth_error (store h k m) l = Some (Cache, n') ->
                 exists n, nth_error h l = Some (Cache, n)).
    { intros kk m Q. destruct (Nat.eq_dec kk l) as [E|E]; [subst|rewrite store_other in Q; eauto].
      assert (L : nth_error h l <> None).
      { intros Z. apply nth_error_None in Z.
        assert (Y : nth_error (store h l m) l <> None) by congruence. apply nth_error_Some in Y.
        rewrite store_length in Y. lia. }
      destruct (nth_error h l) as [[o nn]|] eqn:Z; [|congruence].
      rewrite (store_same _ _ _ _ _ Z) in Q. inversion Q; subst. eauto. }
    assert (AP : forall b, nth_error (h ++ owned (Of i) b)%list l = Some (Cache, n') ->
                 exists n, nth_error h l = Some (Cache, n)).
    { intros b Q. apply nth_app_inv in Q. destruct Q as [Q|[_ Q]]; eauto.
      apply nth_owned in Q. destruct Q as [k2 [Q _]]. discriminate. }
    assert (A1 : forall nd, nth_error (h ++ [(Of i, nd)])%list l = Some (Cache, n') ->
                 exists n, nth_error h l = Some (Cache, n)) by (intros nd Q; apply (AP [nd]); auto).
    destruct p; destruct c; cbn [pexec] in X; try discriminate;
    repeat match type of X with
           | (if ?b then _ else _) = _ => destruct b; try discriminate
           | match ?t with _ => _ end = _ => destruct t; try discriminate
           end;
    inversion X; subst; eauto.
  - right. destruct (ko i); try discriminate. destruct (nth_error ps n); try discriminate. inversion M; subst. eauto.
  - left. destruct (closed (List.length h) b) eqn:C; try discriminate. inversion M; subst. exists b; auto.
Qed.

Lemma mc_objects : forall ms w tr, run mc_programs ms world0 = Some (w, tr) ->
  forall l n f m, in_cache w l n -> In (f, VLoc m) n -> exists n', in_cache w m n'.
Proof.
  intros ms. induction ms as [|x r IH] using rev_ind; intros w tr R l n f m N I.
  - simpl in R. inversion R; subst. unfold in_cache in N. simpl in N.
    do 3 (destruct l as [|l]; [discriminate|]). destruct l; discriminate.
  - destruct (run_app _ _ _ _ _ _ R) as [w1 [t1 [t2 [R1 [R2 _]]]]]. simpl in R2.
    destruct (move mc_programs x w1) as [[w' ev]|] eqn:M; try discriminate. inversion R2; subst.
    assert (K : forall k nn, in_cache w1 k nn -> in_cache w k nn).
    { intros k nn Q. eapply (cache_step _ _ _ _ _ _ _ _ _ _ mc_checked R1 M (copying_none w1 x)); auto. }
    assert (O : forall k nn, in_cache w1 k nn -> In (f, VLoc m) nn -> exists n', in_cache w m n').
    { intros k nn Q J. destruct (IH _ _ R1 _ _ _ _ Q J) as [n' Q']. eauto. }
    destruct (move_new_cache _ _ _ _ _ M) as [[b [E [C H]]]|H].
    + unfold in_cache in N. rewrite H in N. apply nth_app_inv in N. destruct N as [N|[_ N]]; eauto.
      apply nth_owned in N. destruct N as [k [Q J]]. inversion Q; subst.
      assert (Z : In (VLoc m) (vals k)) by (unfold vals; apply in_map_iff; exists (f, VLoc m); auto).
      destruct (closed_in _ _ _ _ C J Z) as [A B].
      destruct (at_owned (heap w1) Cache b m A B) as [n' Q']. exists n'. unfold in_cache. now rewrite H.
    + destruct (H _ _ N) as [n0 N0]. assert (Q := K _ _ N0). unfold in_cache in N, Q.
      rewrite N in Q. inversion Q; subst. eauto.
Qed.

Lemma mc_writes : forall ms w tr, run mc_programs ms world0 = Some (w, tr) ->
  forall i l, (In (Wrote i l) tr -> l = 0 \/ exists n, nth_error (heap w) l = Some (Of i, n)) /\
              (In (Locked i l) tr -> l = 2).
Proof.
  intros ms w tr R i l.
  split; [|intros L; eapply (locks _ _ _ _ _ _ _ mc_checked R i l L)].
  revert w tr R. induction ms as [|x r IH] using rev_ind; intros w tr R W.
  - simpl in R. inversion R; subst. destruct W.
  - destruct (run_app _ _ _ _ _ _ R) as [w1 [t1 [t2 [R1 [R2 T]]]]]. simpl in R2.
    destruct (move mc_programs x w1) as [[w' ev]|] eqn:M; try discriminate. inversion R2; subst.
    rewrite app_nil_r in W. destruct (run_ok _ _ _ _ _ _ _ _ _ mc_checked (Inv0 _ _ _) R1) as [hs [V _]].
    destruct (move_ok _ _ _ _ _ _ _ _ _ mc_checked V M) as [hs' [[S _] [_ E]]].
    rewrite copying_none in E. apply in_app_iff in W. destruct W as [W|W].
    + destruct (IH _ _ R1 W) as [Z|[n Z]]; auto. right.
      assert (A : at_o (heap w) l (Of i)); [|exact A].
      destruct x as [j c|j k|b]; simpl in M.
      * destruct (wexec j c (env w1 j) (kont w1 j) (heap w1)) as [[[[e k] h1] evs]|] eqn:Q; try discriminate.
        inversion M; subst. simpl. destruct (kont w1 j) as [|p q]; simpl in Q; try discriminate.
        destruct p as [|p| | |]; try (destruct c; try discriminate; inversion Q; subst; exists n; auto; fail).
        destruct (pexec j p c (env w1 j) (heap w1)) as [[[e1 h1'] ev1]|] eqn:X; try discriminate. inversion Q; subst.
        eapply prim_at; eauto. exists n; auto.
      * destruct (kont w1 j); try discriminate. destruct (nth_error mc_programs k); try discriminate.
        inversion M; subst. exists n; auto.
      * destruct (closed (List.length (heap w1)) b); try discriminate. inversion M; subst. simpl.
        apply at_app. exists n; auto.
    + destruct (E _ W) as [j Q]; simpl in Q. destruct Q as [J [Q|[[_ [Q _]]|[Q _]]]]; try discriminate; auto.
      right. subst j. destruct (sim_at _ _ _ _ S Q) as [n Z]; [discriminate|]. eauto.
Qed.

Lemma in_split_run : forall ps ms w w' tr ev, run ps ms w = Some (w', tr) -> In ev tr ->
  exists a m b w1 t1 w2 e t2, ms = (a ++ m :: b)%list /\ run ps a w = Some (w1, t1) /\
    move ps m w1 = Some (w2, e) /\ run ps b w2 = Some (w', t2) /\ tr = (t1 ++ e ++ t2)%list /\ In ev e.
Proof.
  intros ps. induction ms as [|m r IH]; intros w w' tr ev R I; simpl in R.
  - inversion R; subst. destruct I.
  - destruct (move ps m w) as [[w1 e]|] eqn:M; try discriminate.
    destruct (run ps r w1) as [[w2 t]|] eqn:Q; try discriminate. inversion R; subst.
    apply in_app_iff in I. destruct I as [I|I].
    + exists [], m, r, w, [], w1, e, t. simpl. auto 8.
    + destruct (IH _ _ _ _ Q I) as [a [m' [b [w3 [t1 [w4 [e' [t2 [A [B [C [D [T J]]]]]]]]]]]]].
      exists (m :: a), m', b, w3, (e ++ t1)%list, w4, e', t2. subst. split; auto.
      split; [simpl; rewrite M, B; auto|]. split; [auto|]. split; [auto|]. split; auto.
      now rewrite app_assoc.
Qed.

Lemma mc_race : forall ms w tr, run mc_programs ms world0 = Some (w, tr) ->
  forall i j l, i <> j -> In (Wrote i l) tr -> touches tr j l -> l = 0.
Proof.
  intros ms w tr R i j l D W T.
  destruct (in_split_run _ _ _ _ _ _ R W) as [a [m [b [w1 [t1 [w2 [e [t2 [A [B [M [E [Q J]]]]]]]]]]]]].
  subst tr.
  eapply (no_race _ _ _ _ _ _ _ _ _ _ _ _ _ mc_checked B M (copying_none w1 m) E i j l D J T).
Qed.

(* ---- the manager ---- *)
Lemma look_put : forall n f v g, g <> f -> look (put n f v) g = look n g.
Proof.
  intros n f v g D. unfold put. simpl. destruct (String.eqb f g) eqn:Q; [apply String.eqb_eq in Q; congruence|].
  clear Q. induction n as [|[k u] r IH]; simpl; auto. destruct (String.eqb k f) eqn:Q.
  - apply String.eqb_eq in Q. subst k. destruct (String.eqb f g) eqn:Q; [apply String.eqb_eq in Q; congruence|auto].
  - simpl. destruct (String.eqb k g); auto.
Qed.
Lemma prefix_append : forall p s, prefix p (p ++ s) = true.
Proof. induction p as [|c p IH]; intros s; simpl; [destruct s; auto|]. destruct (Ascii.ascii_dec c c); congruence. Qed.
Lemma look_copied : forall n p k q f, prefix p f = false -> look (copied n p k q) f = look n f.
Proof.
  intros n p k q f P. unfold copied.
  assert (A : forall l n, look (map (rename p q) l ++ n)%list f = look n f).
  { clear n. intros l n. induction l as [|[a v] r IH]; simpl; auto.
    destruct (String.eqb _ f) eqn:Q; auto. apply String.eqb_eq in Q. subst f.
    rewrite prefix_append in P. discriminate. }
  rewrite A. induction n as [|[a v] r IH]; simpl; auto.
  destruct (prefix p a) eqn:Q; simpl; destruct (String.eqb a f) eqn:Z; auto.
  apply String.eqb_eq in Z; subst a. congruence.
Qed.

Lemma copy_fields : forall i p c e h e' h' evs, copy_statement p = true ->
  pexec i p c e h = Some (e', h', evs) -> forall l o n, nth_error h l = Some (o, n) ->
  exists n', nth_error h' l = Some (o, n') /\
    forall f, template_field f = false -> look n' f = look n f.
Proof.
  intros i p c e h e' h' evs CP X l o n N.
  assert (ST : forall k n2 o2 nn, nth_error h k = Some (o2, nn) ->
     (forall f, template_field f = false -> look n2 f = look nn f) ->
     exists n', nth_error (store h k n2) l = Some (o, n') /\
       forall f, template_field f = false -> look n' f = look n f).
  { intros k n2 o2 nn K F. destruct (Nat.eq_dec k l) as [E|E].
    - subst k. rewrite N in K. inversion K; subst. exists n2. split; auto. eapply store_same; eauto.
    - exists n. rewrite store_other; auto. }
  assert (TF : forall f, template_field f = false -> prefix "Spec.NodeTemplateSpec." f = false /\
     f <> "Spec.MachineConfiguration" /\ f <> "Spec.Class.Kind").
  { intros f H. unfold template_field in H. apply orb_false_iff in H. destruct H as [H H3].
    apply orb_false_iff in H. destruct H as [H1 H2].
    apply String.eqb_neq in H2. apply String.eqb_neq in H3. auto. }
  destruct p as [x|x y|n0 x|x|x s|x y|x y f|x y|y f x|y f|y f|y p x q|z y x|y|s f|s f];
    simpl in CP; try discriminate; apply andb_true_iff in CP; destruct CP as [_ CP];
    apply String.eqb_eq in CP; subst; cbn [pexec] in X.
  - destruct c; try discriminate. destruct (e y) as [|l0|]; try discriminate.
    destruct (nth_error h l0) as [[o2 nn]|] eqn:K; try discriminate. inversion X; subst.
    eapply ST; eauto. intros g G. apply look_put. apply TF in G. simpl. tauto.
  - destruct c; try discriminate. destruct (e y) as [|l0|]; try discriminate.
    destruct (nth_error h l0) as [[o2 nn]|] eqn:K; try discriminate. inversion X; subst.
    eapply ST; eauto. intros g G. apply look_put. apply TF in G. simpl. tauto.
  - destruct c; try discriminate. destruct (e y) as [|l0|]; try discriminate.
    destruct (e x) as [|l1|]; try discriminate.
    destruct (nth_error h l0) as [[o2 nn]|] eqn:K; try discriminate.
    destruct (nth_error h l1) as [[o3 n3]|] eqn:K2; try discriminate. inversion X; subst.
    eapply ST; eauto. intros g G. apply look_copied. apply TF in G. tauto.
Qed.

Lemma mcm_cache : forall ms m w tr w' ev, run mcm_programs ms world0 = Some (w, tr) ->
  move mcm_programs m w = Some (w', ev) -> ~ copies_template w m ->
  forall l n, in_cache w l n -> in_cache w' l n.
Proof.
  intros ms m w tr w' ev R M NC l n N.
  assert (Q : copying copy_statement w m = false).
  { destruct (copying copy_statement w m) eqn:Q; auto. apply copying_iff in Q. tauto. }
  eapply (cache_step _ _ _ _ _ _ _ _ _ _ mcm_checked R M Q); auto.
Qed.

Lemma mcm_fields : forall ms1 ms2 w1 tr1 w2 tr2,
  run mcm_programs ms1 world0 = Some (w1, tr1) -> run mcm_programs ms2 w1 = Some (w2, tr2) ->
  forall l n, in_cache w1 l n ->
  exists n', in_cache w2 l n' /\ forall f, template_field f = false -> look n' f = look n f.
Proof.
  intros ms1 ms2 w1 tr1 w2 tr2 R1 R2 l n N.
  destruct (run_keeps mcm_programs (fun a b => forall f, template_field f = false -> look (snd b) f = look (snd a) f))
    with (ms2 := ms2) (ms1 := ms1) (w1 := w1) (tr1 := tr1) (w2 := w2) (tr2 := tr2) (l := l) (n := n)
    as [n' [N' E]]; auto.
  - intros a b c A B f F. rewrite B; auto.
  - intros ms w tr m w' ev R M k nn K. destruct (copying copy_statement w m) eqn:Q.
    + apply copying_iff in Q. destruct Q as [i [c [p [r [Z [KT CP]]]]]]. subst m. simpl in M. rewrite KT in M.
      simpl in M. destruct (pexec i p c (env w i) (heap w)) as [[[e h] evs]|] eqn:X; try discriminate.
      inversion M; subst. simpl. eapply copy_fields; eauto.
    + exists nn. split; auto. eapply (cache_step _ _ _ _ _ _ _ _ _ _ mcm_checked R M Q); auto.
  - exists n'; auto.
Qed.

Lemma mcm_race : forall ms1 m ms2 w1 tr1 w2 ev w tr, run mcm_programs ms1 world0 = Some (w1, tr1) ->
  move mcm_programs m w1 = Some (w2, ev) -> run mcm_programs ms2 w2 = Some (w, tr) ->
  ~ copies_template w1 m ->
  forall i j l, i <> j -> In (Wrote i l) ev -> ~ touches (tr1 ++ ev ++ tr)%list j l.
Proof.
  intros ms1 m ms2 w1 tr1 w2 ev w tr R1 M R2 NC i j l D W T.
  assert (Q : copying copy_statement w1 m = false).
  { destruct (copying copy_statement w1 m) eqn:Q; auto. apply copying_iff in Q. tauto. }
  destruct (no_race _ _ _ _ _ _ _ _ _ _ _ _ _ mcm_checked R1 M Q R2 i j l D W T) as [_ Z]. discriminate.
Qed.

(* ---- schedules for the examples ---- *)
(* The statements that can go only one way. *)
Definition one_way (k : Kont) : bool :=
  match k with
  | Skip :: _ => true
  | Seq _ _ :: _ => true
  | Do (Make _ _) :: _ => true
  | Do (Let _ _) :: _ => true
  | Do (Get _ _ _) :: _ => true
  | Do (Global _ _) :: _ => true
  | Do (Fields _ _ _ _) :: _ => true
  | _ => false
  end.
(* Worker i goes on with these choices, until they are used up. *)
Fixpoint walk (fuel : nat) (ps : list Prog) (i : nat) (cs : list Choice) (w : World) : list Move :=
  match fuel, cs with
  | S f, c :: r =>
      let '(m, r') := if one_way (kont w i) then (Go, cs) else (c, r) in
      match move ps (Work i m) w with
      | Some (w', _) => Work i m :: walk f ps i r' w'
      | None => []
      end
  | _, _ => []
  end.
Inductive Plan := Then (m : Move) | Walk (i : nat) (cs : list Choice).
Fixpoint plan (ps : list Prog) (l : list Plan) (w : World) : list Move :=
  match l with
  | [] => []
  | x :: r =>
      let ms := match x with Then m => [m] | Walk i cs => walk 1000 ps i cs w end in
      match run ps ms w with
      | Some (w', _) => (ms ++ plan ps r w')%list
      | None => ms
      end
  end.

(* What is looked at of the end of a schedule: the memory, the trace, the next
   statements of two workers. *)
Definition ahead (w : World) (i : nat) : option Prim :=
  match kont w i with Do p :: _ => Some p | _ => None end.
Definition outcome (ps : list Prog) (ms : list Move) : option (Heap * list Event * option Prim * option Prim) :=
  match run ps ms world0 with
  | Some (w, tr) => Some (heap w, tr, ahead w 0, ahead w 1)
  | None => None
  end.
Lemma outcome_run : forall ps ms h tr a b, outcome ps ms = Some (h, tr, a, b) ->
  exists w, run ps ms world0 = Some (w, tr) /\ heap w = h /\ ahead w 0 = a /\ ahead w 1 = b.
Proof.
  intros ps ms h tr a b H. unfold outcome in H. destruct (run ps ms world0) as [[w t]|]; [|discriminate].
  inversion H; subst. exists w; auto.
Qed.
Lemma ahead_some : forall w i p, ahead w i = Some p -> exists r, kont w i = Do p :: r.
Proof. intros w i p H. unfold ahead in H. destruct (kont w i) as [|[|q| | |] r]; inversion H; eauto. Qed.
Lemma ahead_copies : forall w i c p, ahead w i = Some p ->
  (copies_template w (Work i c) <-> copy_statement p = true).
Proof.
  intros w i c p H. apply ahead_some in H. destruct H as [r H]. split.
  - intros [j [d [q [s [M [K C]]]]]]. inversion M; subst. rewrite H in K. inversion K; subst. exact C.
  - intros C. exists i, c, p, r. auto.
Qed.
