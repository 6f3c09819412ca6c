(* Proofs for C43 and C66. *)
Require Import List String Bool Arith Lia.
From Verif Require Import AttModel AttSpec.
Import ListNotations.
Open Scope string_scope.
Open Scope list_scope.
Open Scope nat_scope.

Lemma updC_len : forall l n c, List.length (updC l n c) = List.length l.
Proof. induction l; destruct n; cbn; intros; try reflexivity. now rewrite IHl. Qed.

Lemma nth_updC : forall l n c m, nth_error (updC l n c) m =
  if Nat.eqb n m then match nth_error l m with Some _ => Some c | None => None end else nth_error l m.
Proof.
  induction l; intros n c m.
  - destruct n, m; cbn; try reflexivity. destruct (Nat.eqb n m); reflexivity.
  - destruct n, m; cbn; try reflexivity. apply IHl.
Qed.

(* The handler's invariant. *)
Record Inv (h : Hd) : Prop := {
  i_nodup : NoDup (h_workers h);
  i_open : forall n, In n (h_workers h) <-> exists c, nth_error (h_chans h) n = Some c /\ c_closed c = false;
  i_size : forall n c, nth_error (h_chans h) n = Some c -> List.length (c_buf c) <= chanSize }.

Lemma sendAll_spec : forall ws cs v, NoDup ws ->
  (forall n, In n ws -> exists c, nth_error cs n = Some c /\ c_closed c = false) ->
  exists cs', sendAll ws cs v = Some cs' /\ List.length cs' = List.length cs /\
    forall n, nth_error cs' n =
      if in_dec Nat.eq_dec n ws
      then match nth_error cs n with
           | Some c => Some (if Nat.ltb (List.length (c_buf c)) chanSize then mkChan (c_buf c ++ [v]) (c_got c) false else c)
           | None => None end
      else nth_error cs n.
Proof.
  induction ws as [|w r IH]; intros cs v ND H.
  - exists cs. cbn. repeat split; intros; reflexivity.
  - inversion ND as [|? ? N1 N2]; subst. destruct (H w (or_introl eq_refl)) as [c [E1 E2]].
    cbn [sendAll]. rewrite E1. unfold trySend. rewrite E2.
    remember (if Nat.ltb (List.length (c_buf c)) chanSize then mkChan (c_buf c ++ [v]) (c_got c) false else c) as c'.
    assert (K : (if Nat.ltb (List.length (c_buf c)) chanSize then Some (mkChan (c_buf c ++ [v]) (c_got c) false) else Some c) = Some c')
      by (subst c'; destruct (Nat.ltb _ _); reflexivity).
    rewrite K. destruct (IH (updC cs w c') v N2) as [cs' [F1 [F2 F3]]].
    + intros n I. rewrite nth_updC. destruct (Nat.eqb_spec w n).
      * subst. contradiction.
      * apply H. now right.
    + exists cs'. rewrite F1, F2, updC_len. repeat split; try reflexivity.
      intros n. rewrite F3. rewrite nth_updC.
      destruct (Nat.eqb_spec w n) as [->|NE].
      * destruct (in_dec Nat.eq_dec n r); [contradiction|].
        destruct (in_dec Nat.eq_dec n (n :: r)) as [_|X]; [|exfalso; apply X; now left].
        rewrite E1. now subst c'.
      * destruct (in_dec Nat.eq_dec n r) as [I|I]; destruct (in_dec Nat.eq_dec n (w :: r)) as [J|J]; try reflexivity.
        -- exfalso. apply J. now right.
        -- exfalso. destruct J; congruence.
Qed.

Lemma delWorker_spec : forall n ws cs, NoDup ws ->
  (forall m, In m ws -> exists c, nth_error cs m = Some c /\ c_closed c = false) ->
  exists cs', delWorker n ws cs = Some (filter (fun m => negb (Nat.eqb m n)) ws, cs') /\ List.length cs' = List.length cs /\
    forall m, nth_error cs' m =
      if in_dec Nat.eq_dec m (filter (fun m => Nat.eqb m n) ws)
      then match nth_error cs m with Some c => Some (mkChan (c_buf c) (c_got c) true) | None => None end
      else nth_error cs m.
Proof.
  induction ws as [|w r IH]; intros cs ND H.
  - exists cs. cbn. repeat split; intros; reflexivity.
  - inversion ND as [|? ? N1 N2]; subst. cbn [delWorker filter]. destruct (Nat.eqb_spec w n) as [->|NE]; cbn [negb].
    + destruct (H n (or_introl eq_refl)) as [c [E1 E2]]. rewrite E1. unfold closeC. rewrite E2.
      destruct (IH (updC cs n (mkChan (c_buf c) (c_got c) true)) N2) as [cs' [F1 [F2 F3]]].
      * intros m I. rewrite nth_updC. destruct (Nat.eqb_spec n m); [subst; contradiction|]. apply H. now right.
      * exists cs'. rewrite F1, F2, updC_len. repeat split; try reflexivity.
        intros m. rewrite F3, nth_updC.
        destruct (Nat.eqb_spec n m) as [->|NM].
        -- destruct (in_dec Nat.eq_dec m (filter (fun m0 => Nat.eqb m0 m) r)) as [I|I].
           ++ apply filter_In in I. destruct I. contradiction.
           ++ destruct (in_dec Nat.eq_dec m (m :: _)) as [_|X]; [|exfalso; apply X; now left].
              rewrite E1. reflexivity.
        -- destruct (in_dec Nat.eq_dec m (filter (fun m0 => Nat.eqb m0 n) r)) as [I|I];
           destruct (in_dec Nat.eq_dec m (n :: _)) as [J|J]; try reflexivity.
           ++ exfalso. apply J. now right.
           ++ exfalso. destruct J; congruence.
    + destruct (IH cs N2) as [cs' [F1 [F2 F3]]].
      * intros m I. apply H. now right.
      * exists cs'. rewrite F1. repeat split; try reflexivity; assumption.
Qed.

Lemma in_filter_eq : forall n m ws, In m (filter (fun x => Nat.eqb x n) ws) <-> m = n /\ In n ws.
Proof.
  intros. rewrite filter_In. split; intros [A B].
  - apply Nat.eqb_eq in B. subst. tauto.
  - subst. rewrite Nat.eqb_refl. tauto.
Qed.
Lemma in_filter_ne : forall n m ws, In m (filter (fun x => negb (Nat.eqb x n)) ws) <-> m <> n /\ In m ws.
Proof.
  intros. rewrite filter_In. split; intros [A B].
  - apply negb_true_iff, Nat.eqb_neq in B. tauto.
  - split; [assumption|]. now apply negb_true_iff, Nat.eqb_neq.
Qed.
Lemma NoDup_filter' : forall (f : nat -> bool) l, NoDup l -> NoDup (filter f l).
Proof. intros. now apply NoDup_filter. Qed.
Lemma NoDup_app_one : forall (l : list nat) x, NoDup l -> ~ In x l -> NoDup (l ++ [x]).
Proof.
  induction l; cbn; intros x ND NI.
  - constructor; [easy|constructor].
  - inversion ND; subst. constructor.
    + rewrite in_app_iff. cbn. intros [X|[X|[]]]; [contradiction|]. subst. apply NI. now left.
    + apply IHl; [assumption|]. intro. apply NI. now right.
Qed.

Lemma inv_h0 : Inv h0.
Proof.
  constructor; cbn.
  - constructor.
  - intros n. split; [easy|]. intros [c [E _]]. now destruct n.
  - intros n c E. now destruct n.
Qed.

(* What one step does to a state that meets the invariant. *)
Lemma deliver_spec : forall h v, Inv h -> h_hand h = Some v ->
  exists cs', astep h Deliver = Some (mkHd (h_workers h) cs' None) /\ List.length cs' = List.length (h_chans h) /\
  forall n, nth_error cs' n =
      if in_dec Nat.eq_dec n (h_workers h)
      then match nth_error (h_chans h) n with
           | Some c => Some (if Nat.ltb (List.length (c_buf c)) chanSize then mkChan (c_buf c ++ [v]) (c_got c) false else c)
           | None => None end
      else nth_error (h_chans h) n.
Proof.
  intros h v I E. destruct (sendAll_spec (h_workers h) (h_chans h) v (i_nodup _ I)) as [cs' [A [B C]]].
  - intros n X. now apply (i_open _ I).
  - exists cs'. cbn [astep]. rewrite E, A. tauto.
Qed.

Lemma unreg_spec : forall h n, Inv h ->
  exists cs', astep h (Unregister n) = Some (mkHd (filter (fun m => negb (Nat.eqb m n)) (h_workers h)) cs' (h_hand h)) /\
  List.length cs' = List.length (h_chans h) /\
  forall m, nth_error cs' m =
      if in_dec Nat.eq_dec m (filter (fun m => Nat.eqb m n) (h_workers h))
      then match nth_error (h_chans h) m with Some c => Some (mkChan (c_buf c) (c_got c) true) | None => None end
      else nth_error (h_chans h) m.
Proof.
  intros h n I. destruct (delWorker_spec n (h_workers h) (h_chans h) (i_nodup _ I)) as [cs' [A [B C]]].
  - intros m X. now apply (i_open _ I).
  - exists cs'. cbn [astep]. rewrite A. tauto.
Qed.

Lemma inv_step : forall h o h', Inv h -> astep h o = Some h' -> Inv h'.
Proof.
  intros h o h' I S. destruct o as [obj| | |n|n].
  - cbn [astep] in S. destruct (h_hand h); [now inversion S; subst|].
    destruct (h_workers h) eqn:W; [now inversion S; subst|].
    destruct obj as [v|]; [|now inversion S; subst].
    destruct (va_pv v); [|discriminate]. inversion S; subst. destruct I as [I1 I2 I3].
    constructor; cbn [h_workers h_chans]; try assumption; rewrite W in *; assumption.
  - destruct (h_hand h) as [v|] eqn:E.
    + destruct (deliver_spec h v I E) as [cs' [A [B C]]]. rewrite A in S. inversion S; subst.
      constructor; cbn [h_workers h_chans].
      * apply (i_nodup _ I).
      * intros n. rewrite C. rewrite (i_open _ I n). destruct (in_dec Nat.eq_dec n (h_workers h)) as [J|J]; [|reflexivity].
        split.
        -- intros [c [X Y]]. rewrite X. eexists. split; [reflexivity|]. destruct (Nat.ltb _ _); [reflexivity|assumption].
        -- intros _. now apply (i_open _ I).
      * intros n c. rewrite C. destruct (in_dec _ _ _) as [J|J]; [|apply (i_size _ I)].
        destruct (nth_error (h_chans h) n) as [d|] eqn:F; [|discriminate]. intro G. inversion G; subst.
        pose proof (i_size _ I n d F). destruct (Nat.ltb_spec (List.length (c_buf d)) chanSize); cbn [c_buf]; [|assumption].
        rewrite app_length. cbn [List.length]. unfold chanSize in *. lia.
    + cbn [astep] in S. rewrite E in S. now inversion S; subst.
  - cbn [astep] in S. inversion S; subst. constructor; cbn [h_workers h_chans].
    + apply NoDup_app_one; [apply (i_nodup _ I)|]. intro X. apply (i_open _ I) in X.
      destruct X as [c [X _]]. assert (nth_error (h_chans h) (List.length (h_chans h)) = None) by (now apply nth_error_None). congruence.
    + intros n. rewrite in_app_iff. rewrite (i_open _ I n). cbn [In].
      destruct (Nat.lt_trichotomy n (List.length (h_chans h))) as [L|[L|L]].
      * rewrite nth_error_app1 by assumption. split; [intros [H|[H|[]]]; [assumption|lia]|tauto].
      * subst n. rewrite nth_error_app2, Nat.sub_diag by lia. cbn. split; [|tauto]. intros _. eexists. split; reflexivity.
      * split.
        -- intros [[c [H _]]|[H|[]]]; [|lia]. assert (nth_error (h_chans h) n <> None) as K by congruence.
           apply nth_error_Some in K. lia.
        -- intros [c [H _]]. assert (nth_error (h_chans h ++ [mkChan [] [] false]) n <> None) as K by congruence.
           apply nth_error_Some in K. rewrite app_length in K. cbn in K. lia.
    + intros n c. destruct (Nat.ltb_spec n (List.length (h_chans h))).
      * rewrite nth_error_app1 by assumption. apply (i_size _ I).
      * rewrite nth_error_app2 by assumption. destruct (n - List.length (h_chans h)) as [|k]; cbn.
        -- intro G. inversion G; subst. cbn. unfold chanSize. lia.
        -- destruct k; discriminate.
  - destruct (unreg_spec h n I) as [cs' [A [B C]]]. rewrite A in S. inversion S; subst.
    constructor; cbn [h_workers h_chans].
    + apply NoDup_filter', (i_nodup _ I).
    + intros m. rewrite in_filter_ne, C. destruct (in_dec _ _ _) as [J|J].
      * apply in_filter_eq in J. destruct J as [-> J]. split; [tauto|]. intros [c [X Y]].
        destruct (nth_error (h_chans h) n); [|discriminate]. inversion X; subst. discriminate.
      * rewrite (i_open _ I m). split; [tauto|]. intro K. split; [|assumption].
        intros ->. apply J. apply in_filter_eq. split; [reflexivity|]. now apply (i_open _ I).
    + intros m c. rewrite C. destruct (in_dec _ _ _) as [J|J]; [|apply (i_size _ I)].
      destruct (nth_error (h_chans h) m) as [d|] eqn:F; [|discriminate]. intro G. inversion G; subst. cbn [c_buf]. now apply (i_size _ I m).
  - cbn [astep] in S. destruct (nth_error (h_chans h) n) as [c|] eqn:E; [|now inversion S; subst].
    destruct (c_buf c) as [|v r] eqn:B.
    + destruct (c_closed c); [discriminate|]. now inversion S; subst.
    + inversion S; subst. constructor; cbn [h_workers h_chans].
      * apply (i_nodup _ I).
      * intros m. rewrite nth_updC. rewrite (i_open _ I m). destruct (Nat.eqb_spec n m) as [<-|]; [|reflexivity].
        rewrite E. split; intros [d [X Y]]; inversion X; subst; eexists; split; try reflexivity; assumption.
      * intros m d. rewrite nth_updC. destruct (Nat.eqb_spec n m) as [<-|]; [|apply (i_size _ I)].
        rewrite E. intro G. inversion G; subst. cbn [c_buf]. pose proof (i_size _ I n c E) as K. rewrite B in K. cbn in K. lia.
Qed.

Lemma inv_run : forall ops h h', Inv h -> arun h ops = Some h' -> Inv h'.
Proof.
  induction ops as [|o r IH]; cbn [arun]; intros h h' I R.
  - now inversion R; subst.
  - destruct (astep h o) eqn:S; [|discriminate]. eapply IH; [|exact R]. now apply (inv_step h o).
Qed.
Lemma reached_inv : forall h, Reached h -> Inv h.
Proof. intros h [ops R]. apply (inv_run ops h0 h inv_h0 R). Qed.

Lemma panics : forall h o, Inv h -> astep h o = None ->
  (exists v, o = Event (Some v) /\ va_pv v = None /\ h_workers h <> []) \/
  (exists n, o = Receive n /\ ~ In n (h_workers h) /\ holdsC h n = []).
Proof.
  intros h o I S. destruct o as [obj| | |n|n].
  - cbn [astep] in S. destruct (h_hand h); [discriminate|]. destruct (h_workers h) eqn:W; [discriminate|].
    destruct obj as [v|]; [|discriminate]. destruct (va_pv v) eqn:P; [discriminate|].
    left. exists v. repeat split; congruence.
  - destruct (h_hand h) as [v|] eqn:E.
    + destruct (deliver_spec h v I E) as [cs' [A _]]. congruence.
    + cbn [astep] in S. rewrite E in S. discriminate.
  - discriminate.
  - destruct (unreg_spec h n I) as [cs' [A _]]. congruence.
  - cbn [astep] in S. destruct (nth_error (h_chans h) n) as [c|] eqn:E; [|discriminate].
    destruct (c_buf c) eqn:B; [|discriminate]. destruct (c_closed c) eqn:D; [|discriminate].
    right. exists n. split; [reflexivity|]. split.
    + intro K. apply (i_open _ I) in K. destruct K as [d [X Y]]. congruence.
    + unfold holdsC. now rewrite E.
Qed.

(* One step, seen from a registered waiter. *)
Lemma step_waiter : forall h o h' n, Inv h -> In n (h_workers h) -> o <> Unregister n -> astep h o = Some h' ->
  In n (h_workers h') /\
  exists evs, inHand h ++ comes h o = evs ++ inHand h' /\
    took h' n ++ holdsC h' n = (took h n ++ holdsC h n) ++ (if Nat.ltb (List.length (holdsC h n)) chanSize then evs else []) /\
    (evs = [] \/ o = Deliver /\ evs = inHand h).
Proof.
  intros h o h' n I W NU S. destruct o as [obj| | |m|m].
  - cbn [astep] in S. unfold comes, inHand. destruct (h_hand h) as [v|] eqn:H.
    + inversion S; subst. rewrite H. split; [assumption|]. exists []. split; [destruct obj; reflexivity|].
      split; [destruct (Nat.ltb _ _); now rewrite app_nil_r|now left].
    + destruct (h_workers h) as [|w ws] eqn:EW; [easy|].
      destruct obj as [v|].
      * destruct (va_pv v) eqn:P; [|discriminate]. inversion S; subst. cbn [h_workers h_hand]. split; [assumption|].
        exists []. split; [reflexivity|]. split; [|now left]. destruct (Nat.ltb _ _); now rewrite app_nil_r.
      * inversion S; subst. split; [now rewrite EW|]. rewrite H. exists []. split; [reflexivity|]. split; [|now left].
        destruct (Nat.ltb _ _); now rewrite app_nil_r.
  - destruct (h_hand h) as [v|] eqn:H.
    + destruct (deliver_spec h v I H) as [cs' [A [B C]]]. rewrite A in S. inversion S; subst.
      cbn [h_workers]. split; [assumption|]. exists [v]. unfold inHand. rewrite H. cbn [h_hand].
      split; [reflexivity|]. split; [|right; tauto].
      unfold took, holdsC. cbn [h_chans]. rewrite C. destruct (in_dec Nat.eq_dec n (h_workers h)); [|contradiction].
      destruct (nth_error (h_chans h) n) as [c|] eqn:E.
      * destruct (Nat.ltb _ _); cbn [c_got c_buf]; [now rewrite app_assoc|now rewrite app_nil_r].
      * apply (i_open _ I) in W. destruct W as [d [X _]]. congruence.
    + cbn [astep] in S. rewrite H in S. inversion S; subst. split; [assumption|]. exists []. unfold inHand. rewrite H.
      split; [reflexivity|]. split; [|now left]. destruct (Nat.ltb _ _); now rewrite app_nil_r.
  - cbn [astep] in S. inversion S; subst. cbn [h_workers]. split; [apply in_or_app; now left|].
    exists []. unfold inHand. cbn [h_hand comes]. split; [now rewrite app_nil_r|]. split; [|now left].
    unfold took, holdsC. cbn [h_chans]. apply (i_open _ I) in W. destruct W as [d [X _]].
    assert (n < List.length (h_chans h)) by (apply nth_error_Some; congruence).
    rewrite nth_error_app1 by assumption. destruct (Nat.ltb _ _); now rewrite app_nil_r.
  - destruct (unreg_spec h m I) as [cs' [A [B C]]]. rewrite A in S. inversion S; subst.
    assert (n <> m) as NM by congruence. cbn [h_workers]. split; [apply in_filter_ne; tauto|].
    exists []. unfold inHand. cbn [h_hand comes]. split; [now rewrite app_nil_r|]. split; [|now left].
    unfold took, holdsC. cbn [h_chans]. rewrite C. destruct (in_dec _ _ _) as [J|J].
    + apply in_filter_eq in J. tauto.
    + destruct (Nat.ltb _ _); now rewrite app_nil_r.
  - cbn [astep] in S. destruct (nth_error (h_chans h) m) as [c|] eqn:E.
    + destruct (c_buf c) as [|v r] eqn:Bf.
      * destruct (c_closed c); [discriminate|]. inversion S; subst. split; [assumption|].
        exists []. cbn [comes]. split; [now rewrite app_nil_r|]. split; [|now left]. destruct (Nat.ltb _ _); now rewrite app_nil_r.
      * inversion S; subst. cbn [h_workers]. split; [assumption|]. exists []. unfold inHand. cbn [h_hand comes].
        split; [now rewrite app_nil_r|]. split; [|now left].
        assert (K : took (mkHd (h_workers h) (updC (h_chans h) m (mkChan r (c_got c ++ [v]) (c_closed c))) (h_hand h)) n ++
                holdsC (mkHd (h_workers h) (updC (h_chans h) m (mkChan r (c_got c ++ [v]) (c_closed c))) (h_hand h)) n
                = took h n ++ holdsC h n).
        { unfold took, holdsC. cbn [h_chans]. rewrite nth_updC. destruct (Nat.eqb_spec m n) as [<-|]; [|reflexivity].
          rewrite E. cbn [c_got c_buf]. rewrite Bf, <- app_assoc. reflexivity. }
        rewrite K. destruct (Nat.ltb _ _); now rewrite app_nil_r.
    + inversion S; subst. split; [assumption|]. exists []. cbn [comes]. split; [now rewrite app_nil_r|]. split; [|now left].
      destruct (Nat.ltb _ _); now rewrite app_nil_r.
Qed.

Lemma Sub_refl : forall A (l : list A), Sub l l.
Proof. induction l; constructor; assumption. Qed.
Lemma Sub_app : forall A (a b c d : list A), Sub a b -> Sub c d -> Sub (a ++ c) (b ++ d).
Proof. intros A a b c d S T. induction S; cbn; [assumption|now constructor|now constructor]. Qed.
Lemma Sub_nil : forall A (l : list A), Sub [] l.
Proof. induction l; constructor; assumption. Qed.

Lemma arun_app : forall a b h, arun h (a ++ b) = match arun h a with Some x => arun x b | None => None end.
Proof. induction a; cbn; intros; [reflexivity|]. destruct (astep h a); [apply IHa|reflexivity]. Qed.
Lemma arrivals_app : forall a b h, arrivals h (a ++ b) = arrivals h a ++ match arun h a with Some x => arrivals x b | None => [] end.
Proof.
  induction a; cbn [arrivals app arun]; intros; [reflexivity|].
  destruct (astep h a); [rewrite IHa, app_assoc; reflexivity|now rewrite !app_nil_r].
Qed.

Lemma waiter_gets : forall ops h h' n, Inv h -> In n (h_workers h) -> ~ In (Unregister n) ops -> arun h ops = Some h' ->
  In n (h_workers h') /\
  exists evs kept, inHand h ++ arrivals h ops = evs ++ inHand h' /\
    took h' n ++ holdsC h' n = (took h n ++ holdsC h n) ++ kept /\ Sub kept evs.
Proof.
  induction ops as [|o r IH]; intros h h' n I W NU R.
  - inversion R; subst. split; [assumption|]. exists [], []. cbn. rewrite !app_nil_r. repeat split. constructor.
  - cbn [arun] in R. destruct (astep h o) as [h1|] eqn:S; [|discriminate].
    destruct (step_waiter h o h1 n I W) as [W1 [e1 [A1 [B1 _]]]]; [intro; subst; apply NU; now left|assumption|].
    destruct (IH h1 h' n (inv_step _ _ _ I S) W1) as [W2 [e2 [k2 [A2 [B2 C2]]]]]; [intro; apply NU; now right|assumption|].
    split; [assumption|]. exists (e1 ++ e2).
    exists ((if Nat.ltb (List.length (holdsC h n)) chanSize then e1 else []) ++ k2). cbn [arrivals]. rewrite S.
    split; [|split].
    + rewrite app_assoc, A1, <- app_assoc, A2, app_assoc. reflexivity.
    + rewrite B2, B1, <- app_assoc. reflexivity.
    + apply Sub_app; [|assumption]. destruct (Nat.ltb _ _); [apply Sub_refl|apply Sub_nil].
Qed.

(* If the waiter keeps up, nothing is lost. *)
Lemma waiter_all : forall ops h h' n, Inv h -> In n (h_workers h) -> ~ In (Unregister n) ops -> arun h ops = Some h' ->
  took h n = [] -> holdsC h n = [] ->
  (forall a b x, ops = a ++ b -> arun h a = Some x -> List.length (inHand h ++ arrivals h a) <= List.length (took x n) + chanSize) ->
  took h' n ++ holdsC h' n ++ inHand h' = inHand h ++ arrivals h ops.
Proof.
  intros ops. induction ops as [|o ops IH] using rev_ind; intros h h' n I W NU R T0 H0 K.
  - inversion R; subst. cbn. rewrite T0, H0. now rewrite app_nil_r.
  - rewrite arun_app in R. destruct (arun h ops) as [x|] eqn:RX; [|discriminate].
    cbn [arun] in R. destruct (astep x o) as [y|] eqn:S; [|discriminate]. inversion R; subst.
    assert (NU' : ~ In (Unregister n) ops) by (intro; apply NU; apply in_or_app; now left).
    assert (E : took x n ++ holdsC x n ++ inHand x = inHand h ++ arrivals h ops).
    { apply IH; try assumption. intros a b z -> RA. apply (K a (b ++ [o])); [now rewrite app_assoc|assumption]. }
    destruct (waiter_gets ops h x n I W NU' RX) as [WX _].
    pose proof (inv_run _ _ _ I RX) as IX.
    destruct (step_waiter x o h' n IX WX) as [_ [evs [A [B C]]]]; [intro; subst; apply NU; apply in_or_app; right; now left|assumption|].
    rewrite arrivals_app, RX. cbn [arrivals]. rewrite S, app_nil_r.
    assert (F : took h' n ++ holdsC h' n = (took x n ++ holdsC x n) ++ evs).
    { rewrite B. destruct C as [->|[-> ->]].
      - destruct (Nat.ltb _ _); reflexivity.
      - specialize (K ops [Deliver] x eq_refl RX). rewrite <- E in K. rewrite !app_length in K.
        destruct (Nat.ltb_spec (List.length (holdsC x n)) chanSize); [reflexivity|].
        destruct (inHand x); [reflexivity|]. cbn [List.length] in K. lia. }
    rewrite app_assoc, F, <- !app_assoc, <- A.
    rewrite (app_assoc (inHand h)), <- E, <- !app_assoc. reflexivity.
Qed.

Lemma register_spec : forall h, let n := List.length (h_chans h) in
  exists h1, astep h Register = Some h1 /\ In n (h_workers h1) /\ took h1 n = [] /\ holdsC h1 n = [] /\ inHand h1 = inHand h.
Proof.
  intros h n. eexists. split; [reflexivity|]. unfold took, holdsC, inHand. cbn [h_workers h_chans h_hand].
  split; [apply in_or_app; right; now left|].
  rewrite nth_error_app2 by (unfold n; lia). replace (n - List.length (h_chans h)) with 0 by (unfold n; lia).
  cbn. repeat split; reflexivity.
Qed.

(* Once unregistered. *)
Definition Gone (h : Hd) (n : nat) : Prop := n < List.length (h_chans h) /\ ~ In n (h_workers h).

Lemma gone_step : forall h o h' n, Inv h -> Gone h n -> astep h o = Some h' ->
  Gone h' n /\ took h' n ++ holdsC h' n = took h n ++ holdsC h n.
Proof.
  intros h o h' n I [L G] S. destruct o as [obj| | |m|m].
  - cbn [astep] in S. destruct (h_hand h); [now inversion S; subst|].
    destruct (h_workers h) as [|w ws] eqn:W; [inversion S; subst; unfold Gone; rewrite W; now repeat split|].
    destruct obj as [v|]; [|inversion S; subst; unfold Gone; rewrite W; now repeat split].
    destruct (va_pv v); [|discriminate]. inversion S; subst. unfold Gone, took, holdsC. cbn [h_workers h_chans]. repeat split; assumption.
  - destruct (h_hand h) as [v|] eqn:H.
    + destruct (deliver_spec h v I H) as [cs' [A [B C]]]. rewrite A in S. inversion S; subst.
      unfold Gone, took, holdsC. cbn [h_workers h_chans]. rewrite B. split; [split; assumption|].
      rewrite C. destruct (in_dec _ _ _); [contradiction|reflexivity].
    + cbn [astep] in S. rewrite H in S. now inversion S; subst.
  - cbn [astep] in S. inversion S; subst. unfold Gone, took, holdsC. cbn [h_workers h_chans].
    rewrite app_length. split; [split; [lia|]|].
    + rewrite in_app_iff. cbn [In]. intros [X|[X|[]]]; [contradiction|lia].
    + rewrite nth_error_app1 by assumption. reflexivity.
  - destruct (unreg_spec h m I) as [cs' [A [B C]]]. rewrite A in S. inversion S; subst.
    unfold Gone, took, holdsC. cbn [h_workers h_chans]. rewrite B. split; [split; [assumption|]|].
    + rewrite in_filter_ne. tauto.
    + rewrite C. destruct (in_dec _ _ _) as [J|J]; [|reflexivity].
      destruct (nth_error (h_chans h) n); reflexivity.
  - cbn [astep] in S. destruct (nth_error (h_chans h) m) as [c|] eqn:E; [|now inversion S; subst].
    destruct (c_buf c) as [|v r] eqn:Bf.
    + destruct (c_closed c); [discriminate|]. now inversion S; subst.
    + inversion S; subst. unfold Gone, took, holdsC. cbn [h_workers h_chans]. rewrite updC_len.
      split; [split; assumption|]. rewrite nth_updC. destruct (Nat.eqb_spec m n) as [<-|]; [|reflexivity].
      rewrite E. cbn [c_got c_buf]. rewrite Bf, <- app_assoc. reflexivity.
Qed.

Lemma gone_run : forall ops h h' n, Inv h -> Gone h n -> arun h ops = Some h' ->
  Gone h' n /\ took h' n ++ holdsC h' n = took h n ++ holdsC h n.
Proof.
  induction ops as [|o r IH]; intros h h' n I G R.
  - inversion R; subst. tauto.
  - cbn [arun] in R. destruct (astep h o) as [h1|] eqn:S; [|discriminate].
    destruct (gone_step h o h1 n I G S) as [G1 E1].
    destruct (IH h1 h' n (inv_step _ _ _ I S) G1 R) as [G2 E2]. split; [assumption|congruence].
Qed.

Lemma unregister_gone : forall h h' n, Inv h -> n < List.length (h_chans h) -> astep h (Unregister n) = Some h' ->
  Gone h' n /\ took h' n = took h n /\ holdsC h' n = holdsC h n.
Proof.
  intros h h' n I L S. destruct (unreg_spec h n I) as [cs' [A [B C]]]. rewrite A in S. inversion S; subst.
  unfold Gone, took, holdsC. cbn [h_workers h_chans]. rewrite B, C. split; [split; [assumption|rewrite in_filter_ne; tauto]|].
  destruct (in_dec _ _ _); [|tauto]. destruct (nth_error (h_chans h) n); cbn; tauto.
Qed.

(* waitForReattach *)

Lemma desired_spec : forall v prev, isDesiredReattachment v prev = true <-> va_attached v = true /\ va_node v <> prev.
Proof.
  intros. unfold isDesiredReattachment. rewrite andb_true_iff, negb_true_iff, String.eqb_neq. tauto.
Qed.

Lemma afterEvent_spec : forall prev w v x, In x (afterEvent prev w v) <-> In x w /\ ~ Moved prev x v.
Proof.
  intros. unfold afterEvent, Moved. destruct (va_pv v) as [pv|] eqn:P.
  - destruct (isDesiredReattachment v prev) eqn:D.
    + apply desired_spec in D. rewrite filter_In, negb_true_iff, String.eqb_neq.
      split; intros [A B]; (split; [assumption|]).
      * intros [X _]. congruence.
      * intros ->. tauto.
    + split; [|tauto]. intro A. split; [assumption|]. intros [X Y]. apply desired_spec in Y. congruence.
  - split; [|tauto]. intro. split; [assumption|]. intros [X _]. discriminate.
Qed.

Lemma reattachLoop_spec : forall prev evs w, w <> [] ->
  reattachLoop prev w evs = true <-> forall x, In x w -> exists v, In v evs /\ Moved prev x v.
Proof.
  induction evs as [|v r IH]; intros w NE; cbn [reattachLoop].
  - split; [discriminate|]. intro H. destruct w as [|x w]; [congruence|]. destruct (H x (or_introl eq_refl)) as [v [[] _]].
  - destruct (afterEvent prev w v) as [|y l] eqn:A.
    + split; [|reflexivity]. intros _ x I. exists v. split; [now left|].
      assert (~ ~ Moved prev x v).
      { intro N. assert (In x (afterEvent prev w v)) as K by (apply afterEvent_spec; tauto). rewrite A in K. destruct K. }
      unfold Moved in *. destruct (va_pv v) as [p|]; [|exfalso; apply H; intros [X _]; discriminate].
      destruct (string_dec p x) as [->|N]; [|exfalso; apply H; intros [X _]; congruence].
      destruct (va_attached v); [|exfalso; apply H; intros [_ [X _]]; discriminate].
      destruct (string_dec (va_node v) prev) as [e|N]; [exfalso; apply H; intros [_ [_ X]]; congruence|tauto].
    + assert (S : forall x, In x (y :: l) <-> In x w /\ ~ Moved prev x v) by (intro; rewrite <- A; apply afterEvent_spec).
      rewrite IH by discriminate. split.
      * intros H x I.
        assert (D : Moved prev x v \/ ~ Moved prev x v).
        { unfold Moved. destruct (va_pv v) as [p|]; [|right; intros [X _]; discriminate].
          destruct (string_dec p x) as [->|N]; [|right; intros [X _]; congruence].
          destruct (va_attached v); [|right; intros [_ [X _]]; discriminate].
          destruct (string_dec (va_node v) prev) as [e|N]; [right; intros [_ [_ X]]; congruence|left; tauto]. }
        destruct D as [D|D]; [exists v; split; [now left|assumption]|].
        destruct (H x) as [u [U1 U2]]; [now apply S|]. exists u. split; [now right|assumption].
      * intros H x I. apply S in I. destruct I as [I N]. destruct (H x I) as [u [[<-|U1] U2]]; [contradiction|].
        exists u. tauto.
Qed.

Lemma waitForReattach_spec : forall prev pvs evs, pvs <> [] -> prev <> "" ->
  waitForReattach true prev pvs evs = true <-> forall x, In x pvs -> exists v, In v evs /\ Moved prev x v.
Proof.
  intros prev pvs evs N P. unfold waitForReattach. destruct pvs as [|p l]; [congruence|].
  destruct (String.eqb_spec prev ""); [contradiction|]. apply reattachLoop_spec. discriminate.
Qed.
