(** Lemmas for the deletion of a whole tree. *)
Require Import Coq.Lists.List Coq.Strings.String Coq.Bool.Bool Coq.Arith.PeanoNat Coq.micromega.Lia.
From Verif Require Import StatusModel OwnModel OwnSpec OwnProofs CascModel CascSpec.
Import ListNotations.
Open Scope string_scope.
Open Scope list_scope.

Lemma ours_is : ours = DeleteFinalizerName.
Proof. reflexivity. Qed.

(** What a pass with a current view does to a child. *)
Definition shift (me : nat) (deleting : bool) (sel : list (string * string)) (x y : Obj) : Prop :=
  o_name y = o_name x /\ o_uid y = o_uid x /\ o_labels y = o_labels x /\ (o_deleting x = true -> o_deleting y = true) /\
  (o_owners y = o_owners x \/ (deleting = false /\ orphan x /\ matches sel (o_labels x) /\ o_owners y = [mkOwner me true])).

Lemma shift_refl : forall me d sel x, shift me d sel x x.
Proof. intros. repeat split; auto. Qed.
Lemma shift_same : forall me d sel l, Forall2 (shift me d sel) l l.
Proof. induction l; constructor; auto using shift_refl. Qed.

Lemma claim_shift : forall me d l faults sel store cl err store', distinct store ->
  (forall s, In s store -> owned s me -> matches sel (o_labels s)) ->
  Claim me d l faults sel store store = (cl, err, store') -> Forall2 (shift me d sel) store store'.
Proof.
  intros me d l faults sel store cl err store' D M C. apply claim_store in C.
  assert (G : forall a b, Forall2 (touched me d l sel store) a b -> incl a store -> Forall2 (shift me d sel) a b).
  { intros a b H. induction H as [|x y a b H1 H2 IH]; intros I; constructor.
    - destruct H1 as [->|(-> & o & A & B & E)]; [apply shift_refl|].
      assert (o = x) as -> by (eapply distinct_eq; eauto; apply I; left; reflexivity).
      destruct E as (E & [(E1 & E2 & _)|(E1 & E2)]); [|exfalso; apply E2, M; auto]. repeat split; auto.
    - apply IH. intros z Hz. apply I. right. exact Hz. }
  apply G; [exact C|apply incl_refl].
Qed.

Lemma terminate_shift : forall me d sel e t l, Forall2 (shift me d sel) l (terminateAll e t l).
Proof. intros. induction l as [|x l IH]; [constructor|]. cbn. constructor; [|exact IH]. destruct (_ && _); repeat split; auto. Qed.

Definition pass_ok (me : nat) (p : Parent) (sure : Prop) (e : Env) (valid : bool) (store : list Obj) (tmpl : list (string * string)) (news : list nat) (q : list string) (s : list Obj) : Prop :=
  (exists s1 nn, Forall2 (shift me (p_deleting p) (p_sel p)) store s1 /\ s = s1 ++ map (adoptive me tmpl) nn /\ incl nn news /\ NoDup nn /\
     (nn = [] \/ p_deleting p = false)) /\
  (In ours (p_finalizers p) -> In ours q \/ (p_deleting p = true /\ forall x, In x store -> ~ owned x me)) /\
  (p_deleting p = false -> sure -> In ours q \/ s = store) /\
  (forall x, x <> ours -> In x q -> In x (p_finalizers p)) /\
  (p_deleting p = true -> valid = true -> good e -> In ours (p_finalizers p) ->
     (forall x, In x s -> owned x me -> o_deleting x = true) /\ ((forall x, In x store -> ~ owned x me) -> ~ In ours q)).

Lemma add_q : forall fins ok q b, updateFinalizers fins (addFinalizer fins) ok = (q, b) ->
  (In ours fins -> In ours q) /\ (b = true -> In ours q) /\ (forall x, x <> ours -> In x q -> In x fins) /\ (ok = true \/ In ours fins -> In ours q).
Proof.
  intros fins ok q b H. unfold updateFinalizers, addFinalizer in H. rewrite <- ours_is in H. destruct (has ours fins) eqn:E.
  - injection H as <- <-. apply has_in in E. auto.
  - assert (N : ~ In ours fins) by (intros I; apply has_in in I; congruence).
    destruct ok; injection H as <- <-.
    + split; [intros; left; reflexivity|]. split; [intros; left; reflexivity|]. split; [intros x F [I|I]; congruence || exact I|]. intros. left. reflexivity.
    + split; [auto|]. split; [discriminate|]. split; [auto|]. intros [F|F]; [discriminate|contradiction].
Qed.
Lemma remove_q : forall fins ok, let q := fst (updateFinalizers fins (removeFinalizer fins) ok) in
  (forall x, In x q -> In x fins) /\ (ok = true -> ~ In ours q).
Proof.
  intros fins ok q. unfold q, updateFinalizers, removeFinalizer. rewrite <- ours_is. destruct (has ours fins) eqn:E.
  - destruct ok; cbn [fst].
    + split; [intros x I; apply del_in in I; tauto|]. intros _ I. apply del_in in I. tauto.
    + split; [auto|discriminate].
  - cbn [fst]. split; [auto|]. intros _ I. apply has_in in I. congruence.
Qed.

Lemma all_marked : forall e cl store me, distinct store -> (forall n, e_delete e n = true) ->
  (forall s, In s store -> owned s me -> In s cl) ->
  forall x, In x (terminateAll e cl store) -> owned x me -> o_deleting x = true.
Proof.
  intros e cl store me D E C x X O. apply in_map_iff in X as (y & <- & Y).
  destruct (existsb (fun t => Nat.eqb (o_name t) (o_name y) && negb (o_deleting t)) cl && e_delete e (o_name y)) eqn:B; [reflexivity|].
  rewrite E, andb_true_r in B. destruct (o_deleting y) eqn:DY; [reflexivity|]. exfalso.
  assert (F : existsb (fun t => Nat.eqb (o_name t) (o_name y) && negb (o_deleting t)) cl = true).
  { apply existsb_exists. exists y. split; [apply C; auto|]. rewrite Nat.eqb_refl, DY. reflexivity. }
  congruence.
Qed.

Lemma pass_set : forall e valid p store tmpl news q s, distinct store ->
  (forall x, In x store -> owned x (p_uid p) -> matches (p_sel p) (o_labels x)) -> NoDup news ->
  reconcileSet e valid p (p_finalizers p) store store tmpl news = (q, s) ->
  pass_ok (p_uid p) p True e valid store tmpl news q s.
Proof.
  intros e valid p store tmpl news q s D M N H. unfold reconcileSet in H.
  assert (SAME : forall q', (In ours (p_finalizers p) -> In ours q') -> (forall x, x <> ours -> In x q' -> In x (p_finalizers p)) ->
    (p_deleting p = true -> valid = true -> False) -> pass_ok (p_uid p) p True e valid store tmpl news q' store).
  { intros q' A B C. split; [exists store, []; rewrite app_nil_r; repeat split; auto using shift_same; try constructor; intros ? []|].
    split; [auto|]. split; [auto|]. split; [exact B|]. intros F G. destruct (C F G). }
  destruct valid; cbn [negb] in H.
  2:{ injection H as <- <-. apply SAME; auto. discriminate. }
  destruct (p_deleting p) eqn:PD.
  - cbn [negb] in H. destruct (Claim (p_uid p) true (e_live e) (e_fault e) (p_sel p) store store) as ((cl & err) & s1) eqn:C.
    pose proof (claim_deleting_err _ _ _ _ _ _ _ _ _ C) as ->.
    destruct (claim_inv _ _ _ _ _ _ _ _ _ D M C) as (_ & _ & C3). destruct (C3 eq_refl) as (-> & C4).
    destruct cl as [|c0 cl].
    + injection H as <- <-. destruct (remove_q (p_finalizers p) (e_final e)) as (R1 & R2).
      split; [exists store, []; rewrite app_nil_r; repeat split; auto using shift_same; try constructor; intros ? []|].
      assert (NO : forall x, In x store -> ~ owned x (p_uid p)) by (intros x X O; destruct (C4 x X O)).
      split; [intros I; right; auto|]. split; [rewrite PD; discriminate|]. split; [auto|].
      intros _ _ (G1 & G2) _. split; [intros x X O; destruct (NO x X O)|]. intros _. apply R2, G1.
    + destruct (has DeleteFinalizerName (p_finalizers p)) eqn:HF; injection H as <- <-.
      * split; [exists (terminateAll e (c0 :: cl) store), []; rewrite app_nil_r; repeat split; auto using terminate_shift; try constructor; intros ? []|].
        split; [auto|]. split; [rewrite PD; discriminate|]. split; [auto|].
        intros _ _ (G1 & G2) _. split; [apply all_marked; auto|].
        intros NO. exfalso. destruct (claim_sound _ _ _ _ _ _ _ _ _ _ C c0 (or_introl eq_refl)) as (X & _ & [O|(_ & _ & F & _)]); [exact (NO _ X O)|discriminate].
      * split; [exists store, []; rewrite app_nil_r; repeat split; auto using shift_same; try constructor; intros ? []|].
        split; [auto|]. split; [auto|]. split; [auto|]. intros _ _ _ I. apply has_in in I. rewrite <- ours_is in HF. congruence.
  - destruct (updateFinalizers (p_finalizers p) (addFinalizer (p_finalizers p)) (e_final e)) as (q1, ok) eqn:U.
    destruct (add_q _ _ _ _ U) as (U1 & U2 & U3 & _). destruct ok; cbn [negb] in H.
    2:{ injection H as <- <-. apply SAME; auto. discriminate. }
    destruct (Claim (p_uid p) false (e_live e) (e_fault e) (p_sel p) store store) as ((cl & err) & s1) eqn:C.
    pose proof (claim_shift _ _ _ _ _ _ _ _ _ D M C) as SH.
    assert (G : pass_ok (p_uid p) p True e true store tmpl news q1 (s1 ++ map (adoptive (p_uid p) tmpl) (if err then [] else news))).
    { split; [exists s1, (if err then [] else news); rewrite PD; split; [exact SH|]; split; [reflexivity|]; split; [destruct err; [intros ? []|apply incl_refl]|]; split; [destruct err; [constructor|exact N]|right; reflexivity]|].
      split; [auto|]. split; [auto|]. split; [auto|]. rewrite PD. discriminate. }
    destruct err; injection H as <- <-; [rewrite app_nil_r in G|]; exact G.
Qed.

Lemma pass_dep : forall e valid p store tmpl news q s, distinct store ->
  (forall x, In x store -> owned x (p_uid p) -> matches (p_sel p) (o_labels x)) -> NoDup news -> p_sel p <> [] ->
  reconcileDeployment e valid p (p_finalizers p) store store tmpl news = (q, s) ->
  pass_ok (p_uid p) p (e_final e = true \/ In ours (p_finalizers p)) e valid store tmpl news q s.
Proof.
  intros e valid p store tmpl news q s D M N SE H. unfold reconcileDeployment in H.
  set (sure := e_final e = true \/ In ours (p_finalizers p)).
  destruct valid; cbn [negb] in H.
  2:{ injection H as <- <-. split; [exists store, []; rewrite app_nil_r; repeat split; auto using shift_same; try constructor; intros ? []|].
      split; [auto|]. split; [auto|]. split; [auto|]. discriminate. }
  destruct (p_sel p) as [|kv r] eqn:PS; [contradiction|]. rewrite <- PS in *. clear PS SE.
  destruct (p_deleting p) eqn:PD.
  - cbn [negb] in H. destruct (Claim (p_uid p) true (e_live e) (e_fault e) (p_sel p) store store) as ((cl & err) & s1) eqn:C.
    pose proof (claim_deleting_err _ _ _ _ _ _ _ _ _ C) as ->.
    destruct (claim_inv _ _ _ _ _ _ _ _ _ D M C) as (_ & _ & C3). destruct (C3 eq_refl) as (-> & C4).
    destruct (has DeleteFinalizerName (p_finalizers p)) eqn:HF; cbn [negb] in H.
    2:{ injection H as <- <-. split; [exists store, []; rewrite app_nil_r; repeat split; auto using shift_same; try constructor; intros ? []|].
        split; [auto|]. split; [auto|]. split; [auto|]. intros _ _ _ I. apply has_in in I. rewrite <- ours_is in HF. congruence. }
    destruct cl as [|c0 cl].
    + injection H as <- <-. destruct (remove_q (p_finalizers p) (e_final e)) as (R1 & R2).
      split; [exists store, []; rewrite app_nil_r; repeat split; auto using shift_same; try constructor; intros ? []|].
      assert (NO : forall x, In x store -> ~ owned x (p_uid p)) by (intros x X O; destruct (C4 x X O)).
      split; [intros I; right; auto|]. split; [rewrite PD; discriminate|]. split; [auto|].
      intros _ _ (G1 & G2) _. split; [intros x X O; destruct (NO x X O)|]. intros _. apply R2, G1.
    + injection H as <- <-.
      split; [exists (terminateAll e (c0 :: cl) store), []; rewrite app_nil_r; repeat split; auto using terminate_shift; try constructor; intros ? []|].
      split; [auto|]. split; [rewrite PD; discriminate|]. split; [auto|].
      intros _ _ (G1 & G2) _. split; [apply all_marked; auto|].
      intros NO. exfalso. destruct (claim_sound _ _ _ _ _ _ _ _ _ _ C c0 (or_introl eq_refl)) as (X & _ & [O|(_ & _ & F & _)]); [exact (NO _ X O)|discriminate].
  - destruct (updateFinalizers (p_finalizers p) (addFinalizer (p_finalizers p)) (e_final e)) as (q1, ok) eqn:U.
    destruct (add_q _ _ _ _ U) as (U1 & U2 & U3 & U4). cbn [fst negb] in H.
    destruct (Claim (p_uid p) false (e_live e) (e_fault e) (p_sel p) store store) as ((cl & err) & s1) eqn:C.
    pose proof (claim_shift _ _ _ _ _ _ _ _ _ D M C) as SH.
    assert (G : pass_ok (p_uid p) p sure e true store tmpl news q1 (s1 ++ map (adoptive (p_uid p) tmpl) (if err then [] else news))).
    { split; [exists s1, (if err then [] else news); rewrite PD; split; [exact SH|]; split; [reflexivity|]; split; [destruct err; [intros ? []|apply incl_refl]|]; split; [destruct err; [constructor|exact N]|right; reflexivity]|].
      split; [auto|]. split; [intros _ S; left; apply U4, S|]. split; [auto|]. rewrite PD. discriminate. }
    destruct err; injection H as <- <-; [rewrite app_nil_r in G|]; exact G.
Qed.

(** *** Lists *)
Lemma f2_right : forall A B (R : A -> B -> Prop) l l' y, Forall2 R l l' -> In y l' -> exists x, In x l /\ R x y.
Proof. intros A B R l l' y H. induction H as [|a b l l' H1 H2 IH]; intros []; [subst; exists a; split; [left|]; auto|]. destruct (IH H) as (x & X & Y). exists x. split; [right|]; auto. Qed.
Lemma f2_left : forall A B (R : A -> B -> Prop) l l' x, Forall2 R l l' -> In x l -> exists y, In y l' /\ R x y.
Proof. intros A B R l l' x H. induction H as [|a b l l' H1 H2 IH]; intros []; [subst; exists b; split; [left|]; auto|]. destruct (IH H) as (y & X & Y). exists y. split; [right|]; auto. Qed.
Lemma find_name : forall A (get : A -> Obj) l x, distinct (map get l) -> In x l -> find (fun s => Nat.eqb (o_name (get s)) (o_name (get x))) l = Some x.
Proof.
  intros A get l x D. unfold distinct in D. induction l as [|a l IH]; intros []; cbn [find].
  - subst. rewrite Nat.eqb_refl. reflexivity.
  - cbn in D. inversion D as [|? ? D1 D2]; subst. destruct (Nat.eqb_spec (o_name (get a)) (o_name (get x))) as [E|E]; [|apply IH; auto].
    exfalso. apply D1. rewrite E. apply in_map, in_map, H.
Qed.
Lemma find_none_name : forall A (get : A -> Obj) l n, ~ In n (map o_name (map get l)) -> find (fun s => Nat.eqb (o_name (get s)) n) l = None.
Proof.
  intros A get l n H. destruct (find _ l) as [x|] eqn:F; [|reflexivity]. apply find_some in F as (F1 & F2). apply Nat.eqb_eq in F2.
  exfalso. apply H. rewrite <- F2. apply in_map, in_map, F1.
Qed.
Lemma find_is : forall A (get : A -> Obj) l n x, find (fun s => Nat.eqb (o_name (get s)) n) l = Some x -> In x l /\ o_name (get x) = n.
Proof. intros A get l n x F. apply find_some in F as (F1 & F2). apply Nat.eqb_eq in F2. auto. Qed.

Definition sshift (me : nat) (d : bool) (sel : list (string * string)) (x y : TSet) : Prop :=
  shift me d sel (t_obj x) (t_obj y) /\ t_fins y = t_fins x /\ t_sel y = t_sel x /\ t_tmpl y = t_tmpl x.
Definition mshift (me : nat) (d : bool) (sel : list (string * string)) (x y : TMach) : Prop :=
  shift me d sel (m_obj x) (m_obj y) /\ m_fins y = m_fins x.

Lemma as_sets : forall me d sel shape l s1, distinct (map t_obj l) -> Forall2 (shift me d sel) (map t_obj l) s1 ->
  Forall2 (sshift me d sel) l (map (asSet shape l) s1).
Proof.
  intros me d sel shape l s1 D. 
  enough (G : forall k s1, incl k l -> Forall2 (shift me d sel) (map t_obj k) s1 -> Forall2 (sshift me d sel) k (map (asSet shape l) s1)) by (apply G, incl_refl).
  induction k as [|x k IH]; intros s2 I H; cbn [map] in H; inversion H as [|? y ? s3 H1 H2]; subst; cbn [map]; constructor.
  - unfold asSet, findSet. destruct H1 as (E & H1). rewrite E. rewrite (find_name _ t_obj l x D) by (apply I; left; reflexivity).
    unfold sshift. cbn. split; [split; auto|]. auto.
  - apply IH; [intros z Hz; apply I; right; exact Hz|exact H2].
Qed.
Lemma as_machs : forall me d sel l s1, distinct (map m_obj l) -> Forall2 (shift me d sel) (map m_obj l) s1 ->
  Forall2 (mshift me d sel) l (map (asMach l) s1).
Proof.
  intros me d sel l s1 D. 
  enough (G : forall k s1, incl k l -> Forall2 (shift me d sel) (map m_obj k) s1 -> Forall2 (mshift me d sel) k (map (asMach l) s1)) by (apply G, incl_refl).
  induction k as [|x k IH]; intros s2 I H; cbn [map] in H; inversion H as [|? y ? s3 H1 H2]; subst; cbn [map]; constructor.
  - unfold asMach, findMach. destruct H1 as (E & H1). rewrite E. rewrite (find_name _ m_obj l x D) by (apply I; left; reflexivity).
    unfold mshift. cbn. split; [split; auto|]. auto.
  - apply IH; [intros z Hz; apply I; right; exact Hz|exact H2].
Qed.

(** *** The invariant *)
Record TI (me : nat) (sel : list (string * string)) (w : Tree) : Prop := {
  ti_ds : distinct (map t_obj (t_sets w));
  ti_dm : distinct (map m_obj (t_machs w));
  ti_uid : forall s, In s (t_sets w) -> o_uid (t_obj s) = o_name (t_obj s);
  ti_dep : forall p, t_dep w = Some p -> p_uid p = me /\ p_sel p = sel;
  ti_match : forall s, In s (t_sets w) -> owned (t_obj s) me -> matches sel (o_labels (t_obj s));
  ti_held : forall s, In s (t_sets w) -> owned (t_obj s) me -> dep_held w;
  ti_tm : forall s, In s (t_sets w) -> matches (t_sel s) (t_tmpl s);
  ti_mm : forall s m, In s (t_sets w) -> In m (t_machs w) -> owned (m_obj m) (o_uid (t_obj s)) -> matches (t_sel s) (o_labels (m_obj m));
  ti_mheld : forall m u, In m (t_machs w) -> owned (m_obj m) u -> set_held w u;
  ti_vm : forall n, In n (t_vms w) -> mach_held w n }.

Lemma stays_ours : forall d l, In ours l -> stays d l = true.
Proof. intros d [|x l] []; unfold stays; apply orb_true_r. Qed.
Lemma distinct_filter : forall A (get : A -> Obj) f l, distinct (map get l) -> distinct (map get (filter f l)).
Proof.
  intros A get f l. unfold distinct. induction l as [|x l IH]; intros D; cbn in *; [constructor|]. inversion D as [|? ? D1 D2]; subst.
  destruct (f x); cbn; [|auto]. constructor; [|auto]. intros X. apply D1. rewrite map_map in *. apply in_map_iff in X as (y & E & Y).
  apply filter_In in Y as (Y & _). rewrite <- E. apply in_map_iff. exists y. auto.
Qed.

Lemma ti_settle : forall me sel w, TI me sel w -> TI me sel (settle w).
Proof.
  intros me sel w [A B U C D E F G H I].
  assert (HD : dep_held w -> dep_held (settle w)).
  { intros (p & P & Q). exists p. split; [|exact Q]. cbn. rewrite P. apply settle_some. exact Q. }
  assert (HS : forall u, set_held w u -> set_held (settle w) u).
  { intros u (s & S1 & S2 & S3). exists s. split; [|auto]. cbn. apply filter_In. split; [exact S1|]. apply stays_ours, S3. }
  assert (HM : forall u, mach_held w u -> mach_held (settle w) u).
  { intros u (s & S1 & S2 & S3). exists s. split; [|auto]. cbn. apply filter_In. split; [exact S1|]. apply stays_ours, S3. }
  assert (IS : forall s, In s (t_sets (settle w)) -> In s (t_sets w)) by (intros s X; cbn in X; apply filter_In in X; tauto).
  assert (IM : forall s, In s (t_machs (settle w)) -> In s (t_machs w)) by (intros s X; cbn in X; apply filter_In in X; tauto).
  split; auto.
  - cbn. apply distinct_filter, A.
  - cbn. apply distinct_filter, B.
  - cbn. intros p P. destruct (t_dep w) as [p0|]; [|discriminate]. apply settle_is in P. subst p0. apply C. reflexivity.
  - intros s X O. apply HD, (E s); auto.
  - intros m u X O. apply HS, (H m u); auto.
Qed.

Lemma owned_fun : forall o a b, owned o a -> owned o b -> a = b.
Proof. intros o a b. apply controlled_fun. Qed.
Lemma orphan_not : forall o u, orphan o -> ~ owned o u.
Proof. intros o u O W. apply ctrl_orphan in O. apply ctrl_owned in W. congruence. Qed.
Lemma shift_owned : forall me d sel x y u, shift me d sel x y -> owned y u -> owned x u \/ (u = me /\ d = false /\ orphan x /\ matches sel (o_labels x)).
Proof.
  intros me d sel x y u (_ & _ & _ & _ & [E|(E1 & E2 & E3 & E4)]) O; unfold owned in *.
  - left. rewrite <- E. exact O.
  - right. rewrite E4 in O. inversion O; subst. auto.
Qed.
Lemma shift_keeps : forall me d sel x y u, shift me d sel x y -> owned x u -> owned y u.
Proof.
  intros me d sel x y u (_ & _ & _ & _ & [E|(E1 & E2 & E3 & E4)]) O; unfold owned in *.
  - rewrite E. exact O.
  - exfalso. exact (orphan_not _ _ E2 O).
Qed.

Lemma names_shift : forall me d sel l l', Forall2 (shift me d sel) l l' -> map o_name l' = map o_name l.
Proof. intros me d sel l l' H. induction H as [|x y l l' H1 H2 IH]; [reflexivity|]. cbn. rewrite IH. destruct H1 as (-> & _). reflexivity. Qed.

Lemma distinct_app : forall l me tmpl news, distinct l -> NoDup news -> (forall n, In n news -> ~ In n (map o_name l)) ->
  distinct (l ++ map (adoptive me tmpl) news).
Proof.
  intros l me tmpl news D N F. unfold distinct in *. rewrite map_app, map_map. cbn [adoptive o_name]. rewrite map_id.
  induction (map o_name l) as [|a r IH]; [exact N|]. cbn. inversion D; subst. constructor.
  - intros X. apply in_app_or in X as [X|X]; [contradiction|]. apply (F a X). left. reflexivity.
  - apply IH; auto. intros n X Y. apply (F n X). right. exact Y.
Qed.

Lemma objs_sets : forall me d sel l k, Forall2 (sshift me d sel) l k -> Forall2 (shift me d sel) (map t_obj l) (map t_obj k).
Proof. intros me d sel l k H. induction H as [|x y l k (H1 & _) H2 IH]; cbn; constructor; auto. Qed.
Lemma objs_as : forall shape l s, map t_obj (map (asSet shape l) s) = s.
Proof. intros. rewrite map_map. rewrite <- (map_id s) at 2. apply map_ext. intros o. unfold asSet. destruct (findSet _ _); reflexivity. Qed.
Lemma objs_asm : forall l s, map m_obj (map (asMach l) s) = s.
Proof. intros. rewrite map_map. rewrite <- (map_id s) at 2. apply map_ext. intros o. unfold asMach. destruct (findMach _ _); reflexivity. Qed.
Lemma names_obj : forall l, map o_name (map t_obj l) = map (fun s => o_name (t_obj s)) l.
Proof. intros. rewrite map_map. reflexivity. Qed.
Lemma names_mobj : forall l, map o_name (map m_obj l) = map (fun s => o_name (m_obj s)) l.
Proof. intros. rewrite map_map. reflexivity. Qed.

(** A pass of the deployment. *)
Lemma dep_pass : forall me sel dl w p e valid shape news, TI me sel w -> sel <> [] -> t_dep w = Some p -> regular me w (TDep e valid shape news) ->
  exists q sets1 nn, act dl w (TDep e valid shape news) = mkTree (Some (finP (fun _ => q) p)) (sets1 ++ map (fun n => mkTSet (adoptive me dl n) [] (fst (shape n)) (snd (shape n))) nn) (t_machs w) (t_vms w) /\
    Forall2 (sshift me (p_deleting p) sel) (t_sets w) sets1 /\ incl nn news /\ NoDup nn /\ (nn = [] \/ p_deleting p = false) /\
    pass_ok me p (e_final e = true \/ In ours (p_finalizers p)) e valid (map t_obj (t_sets w)) dl news q (map t_obj sets1 ++ map (adoptive me dl) nn).
Proof.
  intros me sel dl w p e valid shape news T SE P (R1 & R2 & R3). destruct (ti_dep _ _ _ T p P) as (<- & <-).
  cbn [act]. rewrite P. destruct (reconcileDeployment _ _ _ _ _ _ _ _) as (q & s) eqn:Q.
  pose proof (pass_dep e valid p _ dl news q s (ti_ds _ _ _ T)) as PD.
  assert (MM : forall x, In x (map t_obj (t_sets w)) -> owned x (p_uid p) -> matches (p_sel p) (o_labels x)).
  { intros x X O. apply in_map_iff in X as (y & <- & Y). apply (ti_match _ _ _ T); auto. }
  specialize (PD MM R1 SE Q). pose proof PD as ((s1 & nn & S1 & S2 & S3 & S4 & S5) & _).
  exists q, (map (asSet shape (t_sets w)) s1), nn. rewrite objs_as, <- S2. split; [|split; [apply as_sets; [apply (ti_ds _ _ _ T)|exact S1]|auto]].
  f_equal. rewrite S2, map_app. f_equal. rewrite map_map. apply map_ext_in. intros n X. unfold asSet, findSet. cbn [adoptive o_name].
  rewrite (find_none_name _ t_obj); [reflexivity|]. rewrite names_obj. apply R2, S3, X.
Qed.

Lemma ti_act_dep : forall me sel dl w e valid shape news, TI me sel w -> sel <> [] -> matches sel dl -> regular me w (TDep e valid shape news) ->
  TI me sel (act dl w (TDep e valid shape news)).
Proof.
  intros me sel dl w e valid shape news T SE MD R. destruct (t_dep w) as [p|] eqn:P; [|cbn [act]; rewrite P; exact T].
  destruct (dep_pass _ _ dl _ _ _ _ _ _ T SE P R) as (q & sets1 & nn & -> & F2 & IN & ND & NE & PO).
  destruct R as (R1 & R2 & R3). destruct (ti_dep _ _ _ T p P) as (PU & PS).
  destruct PO as (_ & Q1 & Q2 & _). destruct T as [A B U C D E F G H I].
  assert (SP : forall s, In s (sets1 ++ map (fun n => mkTSet (adoptive me dl n) [] (fst (shape n)) (snd (shape n))) nn) ->
    (exists x, In x (t_sets w) /\ sshift me (p_deleting p) sel x s) \/
    (exists n, In n nn /\ s = mkTSet (adoptive me dl n) [] (fst (shape n)) (snd (shape n)))).
  { intros s X. apply in_app_or in X as [X|X]; [left; exact (f2_right _ _ _ _ _ _ F2 X)|right]. apply in_map_iff in X as (n & <- & X). eauto. }
  assert (NOM : forall n m, In n nn -> In m (t_machs w) -> ~ owned (m_obj m) n).
  { intros n m X Y O. destruct (H m n Y O) as (s & S1 & S2 & _). destruct (R2 n (IN n X)) as (FR & _). apply FR.
    rewrite <- S2, (U s S1). apply in_map_iff. exists s. auto. }
  assert (SU : e_final e = true \/ In ours (p_finalizers p)).
  { destruct R3 as [R3|(p' & P' & R3)]; [auto|]. right. congruence. }
  split; cbn [t_dep t_sets t_machs t_vms]; auto.
  - rewrite map_app, map_map. cbn [t_obj]. apply distinct_app; [|exact ND|].
    + unfold distinct. rewrite (names_shift _ _ _ _ _ (objs_sets _ _ _ _ _ F2)). exact A.
    + intros n X. rewrite (names_shift _ _ _ _ _ (objs_sets _ _ _ _ _ F2)), names_obj. apply R2, IN, X.
  - intros s X. destruct (SP s X) as [(x & X1 & (S1 & S2 & _) & _)|(n & N1 & ->)]; [rewrite S1, S2; auto|reflexivity].
  - intros p' P'. injection P' as <-. auto.
  - intros s X O. destruct (SP s X) as [(x & X1 & S & _)|(n & N1 & ->)]; [|exact MD].
    destruct (shift_owned _ _ _ _ _ _ S O) as [O1|(_ & _ & _ & O1)]; destruct S as (_ & _ & L & _); rewrite L; auto.
  - intros s X O. exists (finP (fun _ => q) p). split; [reflexivity|]. cbn.
    assert (OLD : (exists x, In x (t_sets w) /\ owned (t_obj x) me) -> In ours q).
    { intros (x & X1 & X2). destruct (E x X1 X2) as (p' & P' & HF). rewrite P in P'. injection P' as <-.
      destruct (Q1 HF) as [Y|(_ & Y)]; [exact Y|]. exfalso. apply (Y (t_obj x)); [apply in_map, X1|exact X2]. }
    destruct (p_deleting p) eqn:PD.
    + apply OLD. destruct (SP s X) as [(x & X1 & S & _)|(n & N1 & ->)].
      * exists x. split; [exact X1|]. destruct (shift_owned _ _ _ _ _ _ S O) as [O1|(_ & O1 & _)]; [exact O1|discriminate].
      * destruct NE as [->|NE]; [destruct N1|discriminate].
    + destruct (Q2 eq_refl SU) as [Y|Y]; [exact Y|]. apply OLD.
      assert (X' : In (t_obj s) (map t_obj (t_sets w))).
      { rewrite <- Y. destruct (SP s X) as [_|_]; apply in_app_or in X as [X|X].
        - apply in_or_app. left. apply in_map, X.
        - apply in_or_app. right. apply in_map_iff in X as (n & <- & X). cbn. apply in_map, X.
        - apply in_or_app. left. apply in_map, X.
        - apply in_or_app. right. apply in_map_iff in X as (n & <- & X). cbn. apply in_map, X. }
      apply in_map_iff in X' as (x & E1 & E2). exists x. split; [exact E2|]. rewrite E1. exact O.
  - intros s X. destruct (SP s X) as [(x & X1 & _ & _ & -> & ->)|(n & N1 & ->)]; [auto|]. cbn. apply R2, IN, N1.
  - intros s m X Y O. destruct (SP s X) as [(x & X1 & (S1 & S2 & _) & _ & -> & _)|(n & N1 & ->)]; [apply G; auto; congruence|].
    exfalso. exact (NOM n m N1 Y O).
  - intros m u Y O. destruct (H m u Y O) as (x & X1 & X2 & X3). destruct (f2_left _ _ _ _ _ _ F2 X1) as (y & Y1 & (S1 & S2 & _) & Y3 & _).
    exists y. split; [apply in_or_app; left; exact Y1|]. rewrite S2, Y3. auto.
Qed.

Lemma objs_onset : forall n f l, (forall s, t_obj (f s) = t_obj s) -> map t_obj (onSet n f l) = map t_obj l.
Proof. intros n f l E. unfold onSet. rewrite map_map. apply map_ext. intros s. destruct (Nat.eqb _ _); auto. Qed.
Lemma objs_onmach : forall n f l, (forall s, m_obj (f s) = m_obj s) -> map m_obj (onMach n f l) = map m_obj l.
Proof. intros n f l E. unfold onMach. rewrite map_map. apply map_ext. intros s. destruct (Nat.eqb _ _); auto. Qed.
Lemma uid_eq : forall me sel w a b, TI me sel w -> In a (t_sets w) -> In b (t_sets w) -> o_uid (t_obj a) = o_uid (t_obj b) -> a = b.
Proof.
  intros me sel w a b T A B E. rewrite (ti_uid _ _ _ T a A), (ti_uid _ _ _ T b B) in E.
  pose proof (find_name _ t_obj (t_sets w) a (ti_ds _ _ _ T) A) as X. pose proof (find_name _ t_obj (t_sets w) b (ti_ds _ _ _ T) B) as Y.
  rewrite E in X. congruence.
Qed.

(** A pass of a set. *)
Lemma set_pass : forall me sel dl w x n e valid news, TI me sel w -> findSet n (t_sets w) = Some x -> regular me w (TPass n e valid news) ->
  exists q m1 nn, act dl w (TPass n e valid news) = mkTree (t_dep w) (onSet n (finS (fun _ => q)) (t_sets w)) (m1 ++ map (fun k => mkTMach (adoptive (o_uid (t_obj x)) (t_tmpl x) k) []) nn) (t_vms w) /\
    Forall2 (mshift (o_uid (t_obj x)) (o_deleting (t_obj x)) (t_sel x)) (t_machs w) m1 /\ incl nn news /\ NoDup nn /\ (nn = [] \/ o_deleting (t_obj x) = false) /\
    pass_ok (o_uid (t_obj x)) (parentOf x) True e valid (map m_obj (t_machs w)) (t_tmpl x) news q (map m_obj m1 ++ map (adoptive (o_uid (t_obj x)) (t_tmpl x)) nn).
Proof.
  intros me sel dl w x n e valid news T P (R1 & R2). destruct (find_is _ t_obj _ _ _ P) as (IX & NX).
  cbn [act]. rewrite P. destruct (reconcileSet _ _ _ _ _ _ _ _) as (q & s) eqn:Q.
  pose proof (pass_set e valid (parentOf x) _ (t_tmpl x) news q s (ti_dm _ _ _ T)) as PD.
  assert (MM : forall y, In y (map m_obj (t_machs w)) -> owned y (p_uid (parentOf x)) -> matches (p_sel (parentOf x)) (o_labels y)).
  { intros y Y O. apply in_map_iff in Y as (m & <- & Y). apply (ti_mm _ _ _ T x m); auto. }
  specialize (PD MM R1 Q). cbn [p_uid p_sel p_deleting parentOf] in PD. pose proof PD as ((s1 & nn & S1 & S2 & S3 & S4 & S5) & _).
  exists q, (map (asMach (t_machs w)) s1), nn. rewrite objs_asm, <- S2. split; [|split; [apply as_machs; [apply (ti_dm _ _ _ T)|exact S1]|auto]].
  f_equal. rewrite S2, map_app. f_equal. rewrite map_map. apply map_ext_in. intros k X. unfold asMach, findMach. cbn [adoptive o_name].
  rewrite (find_none_name _ m_obj); [reflexivity|]. rewrite names_mobj. apply R2, S3, X.
Qed.

Lemma objs_machs : forall me d sel l k, Forall2 (mshift me d sel) l k -> Forall2 (shift me d sel) (map m_obj l) (map m_obj k).
Proof. intros me d sel l k H. induction H as [|x y l k (H1 & _) H2 IH]; cbn; constructor; auto. Qed.

Lemma in_onset : forall n f l s, In s (onSet n f l) -> exists x, In x l /\ ((o_name (t_obj x) = n /\ s = f x) \/ (o_name (t_obj x) <> n /\ s = x)).
Proof.
  intros n f l s X. apply in_map_iff in X as (x & <- & X). exists x. split; [exact X|]. destruct (Nat.eqb_spec (o_name (t_obj x)) n); auto.
Qed.
Lemma onset_in : forall n f l x, In x l -> In (if Nat.eqb (o_name (t_obj x)) n then f x else x) (onSet n f l).
Proof. intros n f l x X. apply in_map_iff. exists x. auto. Qed.
Lemma in_onmach : forall n f l s, In s (onMach n f l) -> exists x, In x l /\ ((o_name (m_obj x) = n /\ s = f x) \/ (o_name (m_obj x) <> n /\ s = x)).
Proof.
  intros n f l s X. apply in_map_iff in X as (x & <- & X). exists x. split; [exact X|]. destruct (Nat.eqb_spec (o_name (m_obj x)) n); auto.
Qed.
Lemma onmach_in : forall n f l x, In x l -> In (if Nat.eqb (o_name (m_obj x)) n then f x else x) (onMach n f l).
Proof. intros n f l x X. apply in_map_iff. exists x. auto. Qed.

Lemma ti_act_set : forall me sel dl w n e valid news, TI me sel w -> regular me w (TPass n e valid news) ->
  TI me sel (act dl w (TPass n e valid news)).
Proof.
  intros me sel dl w n e valid news T R. destruct (findSet n (t_sets w)) as [x|] eqn:P; [|cbn [act]; rewrite P; exact T].
  destruct (set_pass _ _ dl _ _ _ _ _ _ T P R) as (q & m1 & nn & -> & F2 & IN & ND & NE & PO).
  destruct (find_is _ t_obj _ _ _ P) as (IX & NX).
  destruct R as (R1 & R2). destruct PO as (_ & Q1 & Q2 & _). pose proof T as [A B U C D E F G H I]. cbn [p_deleting p_finalizers parentOf] in Q1, Q2.
  assert (SET : forall s, In s (onSet n (finS (fun _ => q)) (t_sets w)) -> exists y, In y (t_sets w) /\ t_obj s = t_obj y /\ t_sel s = t_sel y /\ t_tmpl s = t_tmpl y).
  { intros s X. destruct (in_onset _ _ _ _ X) as (y & Y & [(_ & ->)|(_ & ->)]); exists y; auto. }
  assert (MP : forall s, In s (m1 ++ map (fun k => mkTMach (adoptive (o_uid (t_obj x)) (t_tmpl x) k) []) nn) ->
    (exists y, In y (t_machs w) /\ mshift (o_uid (t_obj x)) (o_deleting (t_obj x)) (t_sel x) y s) \/
    (exists k, In k nn /\ s = mkTMach (adoptive (o_uid (t_obj x)) (t_tmpl x) k) [])).
  { intros s X. apply in_app_or in X as [X|X]; [left; exact (f2_right _ _ _ _ _ _ F2 X)|right]. apply in_map_iff in X as (k & <- & X). eauto. }
  assert (OWN : forall s u, In s (m1 ++ map (fun k => mkTMach (adoptive (o_uid (t_obj x)) (t_tmpl x) k) []) nn) -> owned (m_obj s) u ->
    (exists y, In y (t_machs w) /\ owned (m_obj y) u /\ o_labels (m_obj s) = o_labels (m_obj y)) \/ (u = o_uid (t_obj x) /\ matches (t_sel x) (o_labels (m_obj s)) /\ o_deleting (t_obj x) = false)).
  { intros s u X O. destruct (MP s X) as [(y & Y1 & S & _)|(k & K1 & ->)].
    - destruct (shift_owned _ _ _ _ _ _ S O) as [O1|(O1 & O2 & _ & O3)]; destruct S as (_ & _ & L & _); [left; exists y; auto|right]. rewrite L. auto.
    - right. cbn in O |- *. inversion O; subst. destruct NE as [->|NE]; [destruct K1|]. split; [reflexivity|]. split; [apply F, IX|exact NE]. }
  assert (OLD : (exists y, In y (t_machs w) /\ owned (m_obj y) (o_uid (t_obj x))) -> In ours q).
  { intros (y & Y & O). destruct (H y _ Y O) as (z & Z1 & Z2 & Z3). pose proof (uid_eq _ _ _ _ _ T Z1 IX Z2) as ->.
    destruct (Q1 Z3) as [K|(_ & K)]; [exact K|]. exfalso. apply (K (m_obj y)); [apply in_map, Y|exact O]. }
  assert (HELD : forall u, set_held w u -> (u = o_uid (t_obj x) -> In ours q) -> set_held (mkTree (t_dep w) (onSet n (finS (fun _ => q)) (t_sets w)) (m1 ++ map (fun k => mkTMach (adoptive (o_uid (t_obj x)) (t_tmpl x) k) []) nn) (t_vms w)) u).
  { intros u (z & Z1 & Z2 & Z3) K. exists (if Nat.eqb (o_name (t_obj z)) n then finS (fun _ => q) z else z). split; [apply (onset_in n (finS (fun _ => q)) _ z Z1)|].
    destruct (Nat.eqb_spec (o_name (t_obj z)) n) as [EN|EN]; [|auto]. cbn. split; [exact Z2|]. apply K. rewrite <- Z2, (U z Z1), EN, (U x IX). auto. }
  split; cbn [t_dep t_sets t_machs t_vms]; auto.
  - rewrite objs_onset by reflexivity. exact A.
  - rewrite map_app, map_map. cbn [m_obj]. apply distinct_app; [|exact ND|].
    + unfold distinct. rewrite (names_shift _ _ _ _ _ (objs_machs _ _ _ _ _ F2)). exact B.
    + intros k X. rewrite (names_shift _ _ _ _ _ (objs_machs _ _ _ _ _ F2)), names_mobj. apply R2, IN, X.
  - intros s X. destruct (SET s X) as (y & Y & -> & _). auto.
  - intros s X O. destruct (SET s X) as (y & Y & E1 & _). rewrite E1 in *. auto.
  - intros s X O. destruct (SET s X) as (y & Y & E1 & _). rewrite E1 in *. exact (E y Y O).
  - intros s X. destruct (SET s X) as (y & Y & _ & -> & ->). auto.
  - intros s m X Y O. destruct (SET s X) as (y & Y1 & E1 & E2 & _). rewrite E1 in O. rewrite E2.
    destruct (OWN m _ Y O) as [(z & Z1 & Z2 & Z3)|(Z1 & Z2 & _)]; [rewrite Z3; apply (G y z); auto|].
    pose proof (uid_eq _ _ _ _ _ T Y1 IX Z1) as ->. exact Z2.
  - intros m u Y O. destruct (OWN m u Y O) as [(z & Z1 & Z2 & Z3)|(-> & Z2 & Z3)].
    + apply HELD; [exact (H z u Z1 Z2)|]. intros ->. apply OLD. eauto.
    + assert (HQ : In ours q).
      { destruct (Q2 Z3 Logic.I) as [K|K]; [exact K|]. apply OLD.
        assert (Y' : In (m_obj m) (map m_obj (t_machs w))).
        { rewrite <- K. apply in_app_or in Y as [Y|Y]; apply in_or_app; [left; apply in_map, Y|right].
          apply in_map_iff in Y as (k & <- & Y). cbn. apply in_map, Y. }
        apply in_map_iff in Y' as (y & E1 & E2). exists y. split; [exact E2|]. rewrite E1. exact O. }
      exists (finS (fun _ => q) x). split; [|auto]. cbn [t_sets].
      pose proof (onset_in n (finS (fun _ => q)) _ x IX) as K. rewrite NX, Nat.eqb_refl in K. exact K.
  - intros k V. destruct (I k V) as (y & Y1 & Y2 & Y3). destruct (f2_left _ _ _ _ _ _ F2 Y1) as (z & Z1 & (S1 & _) & Z3).
    exists z. cbn [t_machs]. split; [apply in_or_app; left; exact Z1|]. rewrite S1, Z3. auto.
Qed.

(** The remaining steps change flags and finalizers only. *)
Definition samey (x y : Obj) : Prop := o_name y = o_name x /\ o_uid y = o_uid x /\ o_owners y = o_owners x /\ o_labels y = o_labels x.
Lemma samey_refl : forall x, samey x x.
Proof. repeat split. Qed.
Lemma samey_names : forall l l', Forall2 samey l l' -> map o_name l' = map o_name l.
Proof. intros l l' H. induction H as [|x y l l' (E & _) H2 IH]; [reflexivity|]. cbn. rewrite IH, E. reflexivity. Qed.
Lemma samey_owned : forall x y u, samey x y -> (owned y u <-> owned x u).
Proof. intros x y u (_ & _ & E & _). unfold owned. rewrite E. tauto. Qed.
Lemma f2_map : forall A B (R : B -> B -> Prop) (f : A -> B) l l', Forall2 (fun x y => R (f x) (f y)) l l' -> Forall2 R (map f l) (map f l').
Proof. intros A B R f l l' H. induction H; cbn; constructor; auto. Qed.
Lemma f2_imp : forall A (R S : A -> A -> Prop) l l', (forall x y, R x y -> S x y) -> Forall2 R l l' -> Forall2 S l l'.
Proof. intros A R S l l' I H. induction H; constructor; auto. Qed.

Definition ssame (x y : TSet) : Prop := samey (t_obj x) (t_obj y) /\ t_sel y = t_sel x /\ t_tmpl y = t_tmpl x /\ (In ours (t_fins x) -> In ours (t_fins y)).
Definition msame (x y : TMach) : Prop := samey (m_obj x) (m_obj y).

Lemma ti_same : forall me sel w d' sets' machs' vms', TI me sel w ->
  (forall p', d' = Some p' -> p_uid p' = me /\ p_sel p' = sel) ->
  (dep_held w -> exists p', d' = Some p' /\ In ours (p_finalizers p')) ->
  Forall2 ssame (t_sets w) sets' -> Forall2 msame (t_machs w) machs' ->
  (forall n, In n vms' -> exists m, In m machs' /\ o_name (m_obj m) = n /\ In ours (m_fins m)) ->
  TI me sel (mkTree d' sets' machs' vms').
Proof.
  intros me sel w d' sets' machs' vms' [A B U C D E F G H I] HD1 HD2 FS FM HV.
  assert (S : forall s, In s sets' -> exists x, In x (t_sets w) /\ ssame x s) by (intros s X; exact (f2_right _ _ _ _ _ _ FS X)).
  assert (M : forall m, In m machs' -> exists x, In x (t_machs w) /\ msame x m) by (intros s X; exact (f2_right _ _ _ _ _ _ FM X)).
  split; cbn [t_dep t_sets t_machs t_vms]; auto.
  - unfold distinct. rewrite (samey_names (map t_obj (t_sets w))); [exact A|]. apply f2_map. eapply f2_imp; [|exact FS]. intros x y (X & _). exact X.
  - unfold distinct. rewrite (samey_names (map m_obj (t_machs w))); [exact B|]. apply f2_map. exact FM.
  - intros s X. destruct (S s X) as (x & X1 & (X2 & X3 & _) & _). rewrite X2, X3. auto.
  - intros s X O. destruct (S s X) as (x & X1 & X2 & _). apply (samey_owned _ _ me) in X2 as X3. destruct X2 as (_ & _ & _ & ->). apply D; tauto.
  - intros s X O. destruct (S s X) as (x & X1 & X2 & _). apply (samey_owned _ _ me) in X2 as X3. destruct (HD2 (E x X1 (proj1 X3 O))) as (p' & P1 & P2). exists p'. auto.
  - intros s X. destruct (S s X) as (x & X1 & _ & -> & -> & _). auto.
  - intros s m X Y O. destruct (S s X) as (x & X1 & (_ & X2 & _) & X3 & _). destruct (M m Y) as (y & Y1 & Y2). rewrite X2 in O. rewrite X3.
    apply (samey_owned _ _ (o_uid (t_obj x))) in Y2 as Y3. destruct Y2 as (_ & _ & _ & ->). apply G; tauto.
  - intros m u Y O. destruct (M m Y) as (y & Y1 & Y2). apply (samey_owned _ _ u) in Y2 as Y3. destruct (H y u Y1 (proj1 Y3 O)) as (x & X1 & X2 & X3).
    destruct (f2_left _ _ _ _ _ _ FS X1) as (z & Z1 & (_ & Z2 & _) & _ & _ & Z3). exists z. cbn. rewrite Z2. auto.
Qed.

Lemma f2_refl : forall A (R : A -> A -> Prop) l, (forall x, R x x) -> Forall2 R l l.
Proof. intros A R l H. induction l; constructor; auto. Qed.
Lemma ssame_refl : forall x, ssame x x. Proof. repeat split; auto. Qed.
Lemma msame_refl : forall x, msame x x. Proof. intros. apply samey_refl. Qed.
Lemma f2_onset : forall n f l, (forall x, ssame x (f x)) -> Forall2 ssame l (onSet n f l).
Proof. intros n f l H. induction l; cbn; constructor; auto. destruct (Nat.eqb _ _); auto using ssame_refl. Qed.
Lemma f2_onmach : forall n f l, (forall x, msame x (f x)) -> Forall2 msame l (onMach n f l).
Proof. intros n f l H. induction l; cbn; constructor; auto. destruct (Nat.eqb _ _); auto using msame_refl. Qed.
Lemma held_onmach : forall w n f k, (forall x, o_name (m_obj (f x)) = o_name (m_obj x)) -> (forall x, In x (t_machs w) -> o_name (m_obj x) = n -> k = n -> In ours (m_fins x) -> In ours (m_fins (f x))) ->
  mach_held w k -> exists m, In m (onMach n f (t_machs w)) /\ o_name (m_obj m) = k /\ In ours (m_fins m).
Proof.
  intros w n f k HN HF (m & M1 & M2 & M3). exists (if Nat.eqb (o_name (m_obj m)) n then f m else m). split; [exact (onmach_in n f _ m M1)|].
  destruct (Nat.eqb_spec (o_name (m_obj m)) n) as [E|E]; [|auto]. rewrite HN. split; [exact M2|]. apply HF; congruence || auto.
Qed.

Lemma ti_refin : forall me sel w k f, TI me sel w -> (forall l, In ours l -> In ours (f l)) -> TI me sel (refin k f w).
Proof.
  intros me sel w k f T H. pose proof (ti_dep _ _ _ T) as TD. pose proof (ti_vm _ _ _ T) as TV. destruct k; cbn [refin]; apply (ti_same me sel w); auto;
    try (apply f2_refl; auto using ssame_refl, msame_refl); try (intros (p & P1 & P2); exists p; auto; fail).
  - intros p' P. destruct (t_dep w) as [p|]; [|discriminate]. injection P as <-. apply (TD p eq_refl).
  - intros (p & P1 & P2). exists (finP f p). rewrite P1. split; [reflexivity|]. apply H, P2.
  - apply f2_onset. intros x. repeat split; auto. cbn. apply H.
  - apply f2_onmach. intros x. apply samey_refl.
  - intros v V. apply held_onmach; auto. intros x X1 X2 X3 X4. cbn. apply H, X4.
Qed.

Lemma ti_act : forall me sel dl w op, TI me sel w -> sel <> [] -> matches sel dl -> regular me w op -> TI me sel (act dl w op).
Proof.
  intros me sel dl w op T SE MD R. pose proof (ti_dep _ _ _ T) as TD. pose proof (ti_vm _ _ _ T) as TV.
  destruct op as [e v shape news|n e v news|k|k x|k x|n|n|n|n|s|m].
  - apply ti_act_dep; auto.
  - apply ti_act_set; auto.
  - destruct k as [|n|n]; cbn [act]; apply (ti_same me sel w); auto; try (apply f2_refl; auto using ssame_refl, msame_refl);
      try (intros (p & P1 & P2); exists p; auto; fail).
    + intros p' P. destruct (t_dep w) as [p|]; [|discriminate]. injection P as <-. apply (TD p eq_refl).
    + intros (p & P1 & P2). eexists. rewrite P1. split; [reflexivity|exact P2].
    + apply f2_onset. intros x. repeat split; auto.
    + apply f2_onmach. intros x. repeat split.
    + intros v V. apply held_onmach; auto.
  - apply ti_refin; auto. intros l I. right. exact I.
  - apply ti_refin; auto. intros l I. cbn in R. apply del_in. split; [exact I|congruence].
  - cbn [act]. destruct (findMach n (t_machs w)) as [m|]; [|exact T]. destruct (o_deleting (m_obj m)); [exact T|]. apply ti_refin; auto.
    intros l I. destruct (has _ l); [exact I|right; exact I].
  - cbn [act]. destruct (findMach n (t_machs w)) as [m|] eqn:FM; [|exact T]. destruct (has DeleteFinalizerName (m_fins m)) eqn:HF; [|exact T].
    destruct (negb (o_deleting (m_obj m))); [|exact T]. cbn [andb].
    apply (ti_same me sel w); auto; try (apply f2_refl; auto using ssame_refl, msame_refl). 
    intros k [<-|V]; [|exact (TV k V)]. destruct (find_is _ m_obj _ _ _ FM) as (M1 & M2). exists m. apply has_in in HF. auto.
  - cbn [act]. destruct (findMach n (t_machs w)) as [m|] eqn:FM; [|exact T]. destruct (o_deleting (m_obj m)); [|exact T].
    apply (ti_same me sel w); auto; try (apply f2_refl; auto using ssame_refl, msame_refl).
    intros k V. apply filter_In in V as (V & _). exact (TV k V).
  - cbn [act]. destruct (findMach n (t_machs w)) as [m|] eqn:FM; [|exact T]. destruct (o_deleting (m_obj m)); [|exact T]. cbn [andb].
    destruct (existsb (Nat.eqb n) (t_vms w)) eqn:EV; [exact T|]. cbn [negb refin].
    apply (ti_same me sel w); auto; try (apply f2_refl; auto using ssame_refl, msame_refl).
    + apply f2_onmach. intros x. apply samey_refl.
    + intros v V. apply held_onmach; auto. intros x X1 X2 X3 X4. exfalso. subst v.
      assert (F : existsb (Nat.eqb n) (t_vms w) = true) by (apply existsb_exists; exists n; split; [exact V|apply Nat.eqb_refl]). congruence.
  - cbn [act]. destruct R as (R1 & R2 & R3 & R4). destruct T as [A B U C D E F G H I].
    assert (NOM : forall m, In m (t_machs w) -> ~ owned (m_obj m) (o_uid (t_obj s))).
    { intros m M O. destruct (H m _ M O) as (x & X1 & X2 & _). apply R1. rewrite <- R2, <- X2, (U x X1). apply in_map_iff. exists x. auto. }
    split; cbn [t_dep t_sets t_machs t_vms]; auto.
    + rewrite map_app. cbn [map]. unfold distinct in *. rewrite map_app. cbn [map]. rewrite <- names_obj in R1.
      clear - A R1. induction (map o_name (map t_obj (t_sets w))) as [|a r IH]; cbn; [constructor; [intros []|constructor]|].
      inversion A; subst. constructor; [|apply IH; auto; intros X; apply R1; right; exact X].
      intros X. apply in_app_or in X as [X|[X|[]]]; [contradiction|]. subst. apply R1. left. reflexivity.
    + intros x X. apply in_app_or in X as [X|[<-|[]]]; auto.
    + intros x X O. apply in_app_or in X as [X|[<-|[]]]; [auto|contradiction].
    + intros x X O. apply in_app_or in X as [X|[<-|[]]]; [exact (E x X O)|contradiction].
    + intros x X. apply in_app_or in X as [X|[<-|[]]]; auto.
    + intros x m X Y O. apply in_app_or in X as [X|[<-|[]]]; [auto|]. exfalso. exact (NOM m Y O).
    + intros m u Y O. destruct (H m u Y O) as (x & X1 & X2). exists x. split; [apply in_or_app; left; exact X1|exact X2].
  - cbn [act]. destruct R as (R1 & R2). destruct T as [A B U C D E F G H I].
    split; cbn [t_dep t_sets t_machs t_vms]; auto.
    + rewrite map_app. cbn [map]. unfold distinct in *. rewrite map_app. cbn [map]. rewrite <- names_mobj in R1.
      clear - B R1. induction (map o_name (map m_obj (t_machs w))) as [|a r IH]; cbn; [constructor; [intros []|constructor]|].
      inversion B; subst. constructor; [|apply IH; auto; intros X; apply R1; right; exact X].
      intros X. apply in_app_or in X as [X|[X|[]]]; [contradiction|]. subst. apply R1. left. reflexivity.
    + intros x y X Y O. apply in_app_or in Y as [Y|[<-|[]]]; [auto|]. exfalso. exact (orphan_not _ _ R2 O).
    + intros y u Y O. apply in_app_or in Y as [Y|[<-|[]]]; [exact (H y u Y O)|]. exfalso. exact (orphan_not _ _ R2 O).
    + intros n V. destruct (I n V) as (y & Y1 & Y2). exists y. split; [apply in_or_app; left; exact Y1|exact Y2].
Qed.

Lemma ti_step : forall me sel dl w op, TI me sel w -> sel <> [] -> matches sel dl -> regular me w op -> TI me sel (tstep dl w op).
Proof. intros. apply ti_settle, ti_act; auto. Qed.
Lemma ti_run : forall me sel dl w l w', TI me sel w -> sel <> [] -> matches sel dl -> trun me dl w l w' -> TI me sel w'.
Proof. intros me sel dl w l w' T SE MD R. induction R as [w|w op l w' R1 R2 IH]; [exact T|]. apply IH, ti_step; auto. Qed.

(** *** Where things come from, while the deployment is being deleted *)
Definition dying (w : Tree) : Prop := forall p, t_dep w = Some p -> p_deleting p = true.
Definition from_set (s s' : TSet) : Prop :=
  o_name (t_obj s') = o_name (t_obj s) /\ o_uid (t_obj s') = o_uid (t_obj s) /\ o_owners (t_obj s') = o_owners (t_obj s) /\
  (o_deleting (t_obj s) = true -> o_deleting (t_obj s') = true).
Definition from_mach (w : Tree) (m m' : TMach) : Prop :=
  o_name (m_obj m') = o_name (m_obj m) /\ (o_deleting (m_obj m) = true -> o_deleting (m_obj m') = true) /\
  (o_owners (m_obj m') = o_owners (m_obj m) \/
   (orphan (m_obj m) /\ exists x, In x (t_sets w) /\ o_deleting (t_obj x) = false /\ o_owners (m_obj m') = [mkOwner (o_uid (t_obj x)) true])).

Lemma dying_act : forall dl w op, dying w -> dying (act dl w op).
Proof.
  intros dl w op D p. destruct op as [e v shape news|n e v news|k|k x|k x|n|n|n|n|s|m]; cbn [act].
  - destruct (t_dep w) as [q|] eqn:E; [|intros H; apply D; congruence]. destruct (reconcileDeployment _ _ _ _ _ _ _ _). cbn. intros H. injection H as <-. cbn. apply D, E.
  - destruct (findSet n (t_sets w)); [|apply D]. destruct (reconcileSet _ _ _ _ _ _ _ _). apply D.
  - destruct k; cbn; try apply D. destruct (t_dep w) eqn:E; [|discriminate]. intros H. injection H as <-. reflexivity.
  - destruct k; cbn; try apply D. destruct (t_dep w) eqn:E; [|discriminate]. intros H. injection H as <-. cbn. apply D, E.
  - destruct k; cbn; try apply D. destruct (t_dep w) eqn:E; [|discriminate]. intros H. injection H as <-. cbn. apply D, E.
  - destruct (findMach n (t_machs w)); [|apply D]. destruct (o_deleting _); apply D.
  - destruct (findMach n (t_machs w)); [|apply D]. destruct (_ && _); apply D.
  - destruct (findMach n (t_machs w)); [|apply D]. destruct (o_deleting _); apply D.
  - destruct (findMach n (t_machs w)); [|apply D]. destruct (_ && _); apply D.
  - apply D.
  - apply D.
Qed.
Lemma dying_step : forall dl w op, dying w -> dying (tstep dl w op).
Proof.
  intros dl w op D p. unfold tstep, settle. cbn. pose proof (dying_act dl w op D) as A. destruct (t_dep (act dl w op)) as [q|] eqn:E; [|discriminate].
  intros H. apply settle_is in H. subst. apply A, E.
Qed.

Lemma from_refl : forall s, from_set s s. Proof. repeat split; auto. Qed.
Lemma fromm_refl : forall w s, from_mach w s s. Proof. repeat split; auto. Qed.

(** A set that is there after a step was there before, or is not the deployment's. *)
Lemma act_sets : forall me sel dl w op s', TI me sel w -> sel <> [] -> dying w -> regular me w op -> In s' (t_sets (act dl w op)) ->
  (exists s, In s (t_sets w) /\ from_set s s') \/ (~ owned (t_obj s') me /\ ~ In (o_name (t_obj s')) (map (fun s => o_name (t_obj s)) (t_sets w))).
Proof.
  intros me sel dl w op s' T SE D R.
  assert (ID : In s' (t_sets w) -> exists s, In s (t_sets w) /\ from_set s s') by (intros X; exists s'; auto using from_refl).
  assert (ON : forall n f, (forall s, from_set s (f s)) -> In s' (onSet n f (t_sets w)) -> exists s, In s (t_sets w) /\ from_set s s').
  { intros n f F X. apply in_onset in X as (x & X1 & [(X2 & ->)|(X2 & ->)]); exists x; auto using from_refl. }
  destruct op as [e v shape news|n e v news|k|k x|k x|n|n|n|n|s|m].
  - intros X. left. destruct (t_dep w) as [p|] eqn:P; [|cbn [act] in X; rewrite P in X; auto].
    destruct (dep_pass _ _ dl _ _ _ _ _ _ T SE P R) as (q & sets1 & nn & E & F2 & IN & ND & NE & PO). rewrite E in X. cbn in X.
    specialize (D p P). destruct NE as [->|NE]; [|congruence]. cbn in X. rewrite app_nil_r in X.
    destruct (f2_right _ _ _ _ _ _ F2 X) as (y & Y1 & (Y2 & Y3 & Y4 & Y5 & [Y6|(Y6 & _)]) & _); [|congruence]. exists y. repeat split; auto.
  - cbn [act]. destruct (findSet n (t_sets w)); [|auto]. destruct (reconcileSet _ _ _ _ _ _ _ _). cbn. intros X. left. apply (ON n (finS (fun _ => l))); auto. intros s. repeat split; auto.
  - destruct k; cbn; auto. intros X. left. eapply ON; [|exact X]. intros s. repeat split; auto.
  - destruct k; cbn; auto. intros X. left. eapply ON; [|exact X]. intros s. repeat split; auto.
  - destruct k; cbn; auto. intros X. left. eapply ON; [|exact X]. intros s. repeat split; auto.
  - cbn [act]. destruct (findMach n (t_machs w)); [|auto]. destruct (o_deleting _); auto.
  - cbn [act]. destruct (findMach n (t_machs w)); [|auto]. destruct (_ && _); auto.
  - cbn [act]. destruct (findMach n (t_machs w)); [|auto]. destruct (o_deleting _); auto.
  - cbn [act]. destruct (findMach n (t_machs w)); [|auto]. destruct (_ && _); auto.
  - cbn. destruct R as (R1 & R2 & R3 & R4). intros X. apply in_app_or in X as [X|[<-|[]]]; auto.
  - cbn. auto.
Qed.

(** Does this step make a machine of this name? *)
Definition makes (n : nat) (op : TOp) : Prop :=
  match op with TPass _ _ _ news => In n news | TForeignMach m => o_name (m_obj m) = n | _ => False end.

(** A machine that is there after a step was there before, or is new, and then not of a set that
    is being deleted. *)
Lemma act_machs : forall me sel dl w op m', TI me sel w -> regular me w op -> In m' (t_machs (act dl w op)) ->
  (exists m, In m (t_machs w) /\ from_mach w m m') \/
  (makes (o_name (m_obj m')) op /\ ~ In (o_name (m_obj m')) (map (fun m => o_name (m_obj m)) (t_machs w)) /\
   forall u, owned (m_obj m') u -> exists x, In x (t_sets w) /\ o_uid (t_obj x) = u /\ o_deleting (t_obj x) = false).
Proof.
  intros me sel dl w op m' T R.
  assert (ID : In m' (t_machs w) -> exists m, In m (t_machs w) /\ from_mach w m m') by (intros X; exists m'; auto using fromm_refl).
  assert (ON : forall n f, (forall s, from_mach w s (f s)) -> In m' (onMach n f (t_machs w)) -> exists m, In m (t_machs w) /\ from_mach w m m').
  { intros n f F X. apply in_onmach in X as (x & X1 & [(X2 & ->)|(X2 & ->)]); exists x; auto using fromm_refl. }
  destruct op as [e v shape news|n e v news|k|k x|k x|n|n|n|n|s|m].
  - cbn [act]. destruct (t_dep w) as [p|]; [|auto]. destruct (reconcileDeployment _ _ _ _ _ _ _ _). auto.
  - intros X. destruct (findSet n (t_sets w)) as [x|] eqn:P; [|cbn [act] in X; rewrite P in X; auto].
    destruct (set_pass _ _ dl _ _ _ _ _ _ T P R) as (q & m1 & nn & E & F2 & IN & ND & NE & PO). rewrite E in X. cbn in X.
    destruct (find_is _ t_obj _ _ _ P) as (X1 & X2). apply in_app_or in X as [X|X].
    + left. destruct (f2_right _ _ _ _ _ _ F2 X) as (y & Y1 & (Y2 & Y3 & Y4 & Y5 & Y6) & _). exists y. split; [exact Y1|]. split; [exact Y2|split; [exact Y5|]].
      destruct Y6 as [Y6|(Y6 & Y7 & Y8 & Y9)]; [left; exact Y6|right]. split; [exact Y7|]. exists x. auto.
    + right. apply in_map_iff in X as (k & <- & K). cbn [m_obj adoptive o_name makes]. split; [apply IN, K|]. split; [apply R, IN, K|].
      intros u O. exists x. destruct NE as [->|NE]; [destruct K|]. split; [exact X1|]. split; [|exact NE]. inversion O; subst. reflexivity.
  - destruct k; cbn; auto. intros X. left. eapply ON; [|exact X]. intros s. repeat split; auto.
  - destruct k; cbn; auto. intros X. left. eapply ON; [|exact X]. intros s. repeat split; auto.
  - destruct k; cbn; auto. intros X. left. eapply ON; [|exact X]. intros s. repeat split; auto.
  - cbn [act]. destruct (findMach n (t_machs w)); [|auto]. destruct (o_deleting _); auto. intros X. left. eapply ON; [|exact X]. intros s. repeat split; auto.
  - cbn [act]. destruct (findMach n (t_machs w)); [|auto]. destruct (_ && _); auto.
  - cbn [act]. destruct (findMach n (t_machs w)); [|auto]. destruct (o_deleting _); auto.
  - cbn [act]. destruct (findMach n (t_machs w)); [|auto]. destruct (_ && _); auto. intros X. left. eapply ON; [|exact X]. intros s. repeat split; auto.
  - cbn. auto.
  - cbn. destruct R as (R1 & R2). intros X. apply in_app_or in X as [X|[<-|[]]]; [auto|right]. split; [reflexivity|]. split; [exact R1|].
    intros u O. exfalso. exact (orphan_not _ _ R2 O).
Qed.

Lemma act_vms : forall dl w op v, In v (t_vms (act dl w op)) -> In v (t_vms w) \/ exists m, In m (t_machs w) /\ o_name (m_obj m) = v /\ o_deleting (m_obj m) = false.
Proof.
  intros dl w op v. destruct op as [e vv shape news|n e vv news|k|k x|k x|n|n|n|n|s|m].
  - cbn [act]. destruct (t_dep w) as [p|]; [|auto]. destruct (reconcileDeployment _ _ _ _ _ _ _ _). auto.
  - cbn [act]. destruct (findSet n (t_sets w)); [|auto]. destruct (reconcileSet _ _ _ _ _ _ _ _). auto.
  - destruct k; auto.
  - destruct k; auto.
  - destruct k; auto.
  - cbn [act]. destruct (findMach n (t_machs w)); [|auto]. destruct (o_deleting _); auto.
  - cbn [act]. destruct (findMach n (t_machs w)) as [m|] eqn:F; [|auto]. destruct (has _ _ && negb (o_deleting (m_obj m))) eqn:C; [|auto].
    cbn. intros [<-|V]; [|auto]. right. exists m. destruct (find_is _ m_obj _ _ _ F) as (F1 & F2). apply andb_true_iff in C as (_ & C). apply negb_true_iff in C. auto.
  - cbn [act]. destruct (findMach n (t_machs w)); [|auto]. destruct (o_deleting _); auto. cbn. intros V. apply filter_In in V as (V & _). auto.
  - cbn [act]. destruct (findMach n (t_machs w)); [|auto]. destruct (_ && _); auto.
  - auto.
  - auto.
Qed.

Lemma settle_set : forall w s, In s (t_sets (settle w)) -> In s (t_sets w) /\ stays (o_deleting (t_obj s)) (t_fins s) = true.
Proof. intros w s X. apply filter_In in X. exact X. Qed.
Lemma settle_mach : forall w s, In s (t_machs (settle w)) -> In s (t_machs w) /\ stays (o_deleting (m_obj s)) (m_fins s) = true.
Proof. intros w s X. apply filter_In in X. exact X. Qed.

(** The situation throughout. *)
Definition ctx (me : nat) (sel dl : list (string * string)) (w : Tree) : Prop := TI me sel w /\ sel <> [] /\ matches sel dl /\ dying w.
Lemma ctx_step : forall me sel dl w op, ctx me sel dl w -> regular me w op -> ctx me sel dl (tstep dl w op).
Proof. intros me sel dl w op (A & B & C & D) R. split; [apply ti_step; auto|]. split; [exact B|]. split; [exact C|]. apply dying_step, D. Qed.
Lemma ctx_run : forall me sel dl w l w', ctx me sel dl w -> trun me dl w l w' -> ctx me sel dl w'.
Proof. intros me sel dl w l w' C R. induction R; auto using ctx_step. Qed.

Lemma set_back : forall me sel dl w op s', ctx me sel dl w -> regular me w op -> its_set me (act dl w op) s' ->
  exists s, its_set me w s /\ from_set s s'.
Proof.
  intros me sel dl w op s' (T & SE & MD & D) R (X & O). destruct (act_sets _ _ dl _ _ _ T SE D R X) as [(s & S1 & S2)|(N & _)]; [|contradiction].
  exists s. split; [|exact S2]. split; [exact S1|]. destruct S2 as (_ & _ & E & _). unfold owned in *. rewrite <- E. exact O.
Qed.
Lemma set_back_step : forall me sel dl w op s', ctx me sel dl w -> regular me w op -> its_set me (tstep dl w op) s' ->
  exists s, its_set me w s /\ from_set s s'.
Proof. intros me sel dl w op s' C R (X & O). apply settle_set in X as (X & _). eapply set_back; eauto. split; auto. Qed.

(** All sets of the deployment are being deleted. *)
Definition P1 (me : nat) (w : Tree) : Prop := forall s, its_set me w s -> o_deleting (t_obj s) = true.
Lemma p1_step : forall me sel dl w op, ctx me sel dl w -> regular me w op -> P1 me w -> P1 me (tstep dl w op).
Proof. intros me sel dl w op C R P s' S. destruct (set_back_step _ _ _ _ _ _ C R S) as (s & S1 & _ & _ & _ & S2). apply S2, P, S1. Qed.

(** A machine of a set of the deployment was one before. *)
Lemma mach_back : forall me sel dl w op m' s', ctx me sel dl w -> regular me w op -> P1 me w ->
  its_set me (act dl w op) s' -> In m' (t_machs (act dl w op)) -> owned (m_obj m') (o_uid (t_obj s')) ->
  exists m s, its_set me w s /\ from_set s s' /\ In m (t_machs w) /\ owned (m_obj m) (o_uid (t_obj s)) /\ o_name (m_obj m') = o_name (m_obj m) /\
    (o_deleting (m_obj m) = true -> o_deleting (m_obj m') = true).
Proof.
  intros me sel dl w op m' s' C R P S M O. destruct (set_back _ _ _ _ _ _ C R S) as (s & S1 & S2). pose proof S2 as (E1 & E2 & _). destruct C as (T & _).
  assert (NO : forall x, In x (t_sets w) -> o_uid (t_obj x) = o_uid (t_obj s') -> o_deleting (t_obj x) = false -> False).
  { intros x X Y Z. assert (x = s) by (apply (uid_eq _ _ _ _ _ T); [exact X|apply S1|congruence]). subst x. rewrite (P s S1) in Z. discriminate. }
  destruct (act_machs _ _ dl _ _ _ T R M) as [(m & M1 & M2 & M3 & M4)|(_ & _ & N)].
  - exists m, s. split; [exact S1|]. split; [exact S2|]. split; [exact M1|]. split; [|auto]. rewrite <- E2.
    destruct M4 as [M4|(_ & x & X1 & X2 & X3)]; [unfold owned in *; rewrite <- M4; exact O|].
    exfalso. apply (NO x X1); [|exact X2]. unfold owned in O. rewrite X3 in O. inversion O; reflexivity.
  - exfalso. destruct (N _ O) as (x & X1 & X2 & X3). exact (NO x X1 X2 X3).
Qed.

(** All machines of the set [n] of the deployment are being deleted. *)
Definition P2 (me n : nat) (w : Tree) : Prop :=
  forall s m, its_set me w s -> o_name (t_obj s) = n -> In m (t_machs w) -> owned (m_obj m) (o_uid (t_obj s)) -> o_deleting (m_obj m) = true.
Lemma p2_step : forall me sel dl w op n, ctx me sel dl w -> regular me w op -> P1 me w -> P2 me n w -> P2 me n (tstep dl w op).
Proof.
  intros me sel dl w op n C R P Q s' m' (S & SO) N M O. apply settle_set in S as (S & _). apply settle_mach in M as (M & _).
  destruct (mach_back _ _ _ _ _ _ _ C R P (conj S SO) M O) as (m & s & A & (B & _) & D & E & _ & G). apply G. apply (Q s m); auto; congruence.
Qed.

(** The machine [n] of the deployment has no VM; it is not there at all. *)
Definition P3 (me n : nat) (w : Tree) : Prop := forall m, its_mach me w m -> o_name (m_obj m) = n -> ~ In n (t_vms w).
Definition P4 (me n : nat) (w : Tree) : Prop := forall m, its_mach me w m -> o_name (m_obj m) <> n.
Definition P2all (me : nat) (w : Tree) : Prop := forall m, its_mach me w m -> o_deleting (m_obj m) = true.

Lemma mach_back_step : forall me sel dl w op m', ctx me sel dl w -> regular me w op -> P1 me w -> its_mach me (tstep dl w op) m' ->
  exists m, its_mach me w m /\ o_name (m_obj m') = o_name (m_obj m) /\ (o_deleting (m_obj m) = true -> o_deleting (m_obj m') = true).
Proof.
  intros me sel dl w op m' C R P (M & s' & (S & SO) & O). apply settle_set in S as (S & _). apply settle_mach in M as (M & _).
  destruct (mach_back _ _ _ _ _ _ _ C R P (conj S SO) M O) as (m & s & A & B & D & E & F & G). exists m. split; [|auto]. split; [exact D|]. exists s. auto.
Qed.
Lemma p2all_step : forall me sel dl w op, ctx me sel dl w -> regular me w op -> P1 me w -> P2all me w -> P2all me (tstep dl w op).
Proof. intros me sel dl w op C R P Q m' M. destruct (mach_back_step _ _ _ _ _ _ C R P M) as (m & A & _ & B). apply B, Q, A. Qed.
Lemma p3_step : forall me sel dl w op n, ctx me sel dl w -> regular me w op -> P1 me w -> P2all me w -> P3 me n w -> P3 me n (tstep dl w op).
Proof.
  intros me sel dl w op n C R P A Q m' M N V. destruct (mach_back_step _ _ _ _ _ _ C R P M) as (m & B & E & _). cbn in V.
  destruct (act_vms _ _ _ _ V) as [V'|(k & K1 & K2 & K3)]; [exact (Q m B (eq_trans (eq_sym E) N) V')|].
  assert (k = m).
  { destruct C as (T & _). pose proof (find_name _ m_obj (t_machs w) k (ti_dm _ _ _ T) K1) as X. pose proof (find_name _ m_obj (t_machs w) m (ti_dm _ _ _ T) (proj1 B)) as Y. 
    rewrite K2, <- N, E in X. congruence. }
  subst k. rewrite (A m B) in K3. discriminate.
Qed.
Lemma p4_step : forall me sel dl w op n, ctx me sel dl w -> regular me w op -> P1 me w -> P4 me n w -> P4 me n (tstep dl w op).
Proof. intros me sel dl w op n C R P Q m' M E. destruct (mach_back_step _ _ _ _ _ _ C R P M) as (m & A & B & _). apply (Q m A). congruence. Qed.
(** The set [n] of the deployment is not there. *)
Definition P5 (me n : nat) (w : Tree) : Prop := forall s, its_set me w s -> o_name (t_obj s) <> n.
Lemma p5_step : forall me sel dl w op n, ctx me sel dl w -> regular me w op -> P5 me n w -> P5 me n (tstep dl w op).
Proof. intros me sel dl w op n C R Q m' M E. destruct (set_back_step _ _ _ _ _ _ C R M) as (m & A & B & _). apply (Q m A). congruence. Qed.

(** No finalizers of others. *)
Lemma bare_act : forall me sel dl w op, ctx me sel dl w -> regular me w op -> no_added op -> bare w -> bare (act dl w op).
Proof.
  intros me sel dl w op (T & SE & MD & D) R NA (B1 & B2 & B3).
  assert (Q : forall f p q, (forall x, x <> ours -> In x q -> In x f) -> incl f [ours] -> p = q -> incl q [ours]).
  { intros f p q H I _ x X. destruct (string_dec x ours) as [->|N]; [left; reflexivity|]. apply I, H; auto. }
  assert (DEL : forall x l, incl l [ours] -> incl (del x l) [ours]) by (intros x l I y Y; apply del_in in Y as (Y & _); auto).
  destruct op as [e v shape news|n e v news|k|k x|k x|n|n|n|n|s|m].
  - destruct (t_dep w) as [p|] eqn:P; [|cbn [act]; rewrite P; split; [|split]; auto; rewrite P; auto].
    destruct (dep_pass _ _ dl _ _ _ _ _ _ T SE P R) as (q & sets1 & nn & E & F2 & IN & ND & NE & PO). rewrite E. destruct PO as (_ & _ & _ & PO & _).
    split; [|split]; cbn [t_dep t_sets t_machs]; auto.
    + intros p' H. injection H as <-. cbn. eapply Q; [exact PO|apply B1; reflexivity|reflexivity].
    + intros s X. apply in_app_or in X as [X|X].
      * destruct (f2_right _ _ _ _ _ _ F2 X) as (y & Y1 & _ & -> & _). auto.
      * apply in_map_iff in X as (k & <- & _). intros y [].
  - destruct (findSet n (t_sets w)) as [x|] eqn:P; [|cbn [act]; rewrite P; split; [|split]; auto].
    destruct (set_pass _ _ dl _ _ _ _ _ _ T P R) as (q & m1 & nn & E & F2 & IN & ND & NE & PO). rewrite E. destruct PO as (_ & _ & _ & PO & _).
    destruct (find_is _ t_obj _ _ _ P) as (X1 & X2).
    split; [|split]; cbn [t_dep t_sets t_machs]; auto.
    + intros s X. apply in_onset in X as (y & Y1 & [(Y2 & ->)|(Y2 & ->)]); [|auto]. cbn. eapply Q; [exact PO|apply (B2 x X1)|reflexivity].
    + intros m X. apply in_app_or in X as [X|X].
      * destruct (f2_right _ _ _ _ _ _ F2 X) as (y & Y1 & _ & ->). auto.
      * apply in_map_iff in X as (k & <- & _). intros y [].
  - destruct k as [|n|n]; cbn [act]; split; try split; cbn [t_dep t_sets t_machs]; auto.
    + destruct (t_dep w) as [p0|] eqn:P; [|discriminate]. intros p H. injection H as <-. cbn. apply (B1 p0 eq_refl).
    + intros s X. apply in_onset in X as (y & Y1 & [(Y2 & ->)|(Y2 & ->)]); cbn; auto.
    + intros s X. apply in_onmach in X as (y & Y1 & [(Y2 & ->)|(Y2 & ->)]); cbn; auto.
  - destruct NA.
  - destruct k as [|n|n]; cbn [act refin]; split; try split; cbn [t_dep t_sets t_machs]; auto.
    + destruct (t_dep w) as [p0|] eqn:P; [|discriminate]. intros p H. injection H as <-. cbn. apply DEL, (B1 p0 eq_refl).
    + intros s X. apply in_onset in X as (y & Y1 & [(Y2 & ->)|(Y2 & ->)]); cbn; auto.
    + intros s X. apply in_onmach in X as (y & Y1 & [(Y2 & ->)|(Y2 & ->)]); cbn; auto.
  - cbn [act]. destruct (findMach n (t_machs w)); [|split; [|split]; auto]. destruct (o_deleting _); [split; [|split]; auto|].
    split; [|split]; cbn [refin t_dep t_sets t_machs]; auto. intros s X. apply in_onmach in X as (y & Y1 & [(Y2 & ->)|(Y2 & ->)]); cbn; auto.
    destruct (has _ _); auto. intros z [<-|Z]; [left; reflexivity|]. apply (B3 y Y1), Z.
  - cbn [act]. destruct (findMach n (t_machs w)); [|split; [|split]; auto]. destruct (_ && _); split; try split; auto.
  - cbn [act]. destruct (findMach n (t_machs w)); [|split; [|split]; auto]. destruct (o_deleting _); split; try split; auto.
  - cbn [act]. destruct (findMach n (t_machs w)); [|split; [|split]; auto]. destruct (_ && _); [|split; [|split]; auto].
    split; [|split]; cbn [refin t_dep t_sets t_machs]; auto. intros s X. apply in_onmach in X as (y & Y1 & [(Y2 & ->)|(Y2 & ->)]); cbn; auto.
  - cbn. split; [|split]; cbn; auto. intros x X. apply in_app_or in X as [X|[<-|[]]]; auto.
  - cbn. split; [|split]; cbn; auto. intros x X. apply in_app_or in X as [X|[<-|[]]]; auto.
Qed.
Lemma bare_step : forall me sel dl w op, ctx me sel dl w -> regular me w op -> no_added op -> bare w -> bare (tstep dl w op).
Proof.
  intros me sel dl w op C R N B. destruct (bare_act _ _ _ _ _ C R N B) as (B1 & B2 & B3). split; [|split]; cbn.
  - destruct (t_dep (act dl w op)) as [q|] eqn:E; [|discriminate]. intros p H. apply settle_is in H. subst. auto.
  - intros s X. apply settle_set in X as (X & _). auto.
  - intros s X. apply settle_mach in X as (X & _). auto.
Qed.

(** What is being deleted has a finalizer. *)
Definition settled (w : Tree) : Prop :=
  (forall p, t_dep w = Some p -> stays (p_deleting p) (p_finalizers p) = true) /\
  (forall s, In s (t_sets w) -> stays (o_deleting (t_obj s)) (t_fins s) = true).
Lemma settled_step : forall dl w op, settled (tstep dl w op).
Proof.
  intros dl w op. split; cbn.
  - destruct (t_dep (act dl w op)) as [q|]; [|discriminate]. intros p H. pose proof (settle_is _ _ H). subst. unfold settleParent in H. unfold stays.
    destruct (p_deleting q); [|reflexivity]. destruct (p_finalizers q); [discriminate|reflexivity].
  - intros s X. apply filter_In in X as (_ & X). exact X.
Qed.
Lemma bare_has : forall d l, d = true -> stays d l = true -> incl l [ours] -> In ours l.
Proof. intros d l -> S I. destruct l as [|x l]; [discriminate|]. destruct (I x (or_introl eq_refl)) as [<-|[]]. left. reflexivity. Qed.
Lemma bare_gone : forall d l, d = true -> incl l [ours] -> ~ In ours l -> stays d l = false.
Proof. intros d l -> I N. destruct l as [|x l]; [reflexivity|]. exfalso. destruct (I x (or_introl eq_refl)) as [<-|[]]. apply N. left. reflexivity. Qed.

(** *** What single steps achieve *)
Lemma ev1 : forall me sel dl w e shape news, ctx me sel dl w -> regular me w (TDep e true shape news) -> good e -> P1 me (tstep dl w (TDep e true shape news)).
Proof.
  intros me sel dl w e shape news C R G s' (S & O). apply settle_set in S as (S & _).
  destruct (set_back _ _ _ _ _ _ C R (conj S O)) as (s & (S1 & S2) & _). destruct C as (T & SE & MD & D).
  destruct (ti_held _ _ _ T s S1 S2) as (p & P & HP).
  destruct (dep_pass _ _ dl _ _ _ _ _ _ T SE P R) as (q & sets1 & nn & E & F2 & IN & ND & NE & PO). destruct PO as (_ & _ & _ & _ & PO).
  destruct (PO (D p P) eq_refl G HP) as (PO1 & _). apply PO1; [|exact O]. rewrite E in S. cbn in S.
  apply in_app_or in S as [S|S]; apply in_or_app; [left; apply in_map, S|right]. apply in_map_iff in S as (k & <- & K). cbn [t_obj]. exact (in_map _ _ _ K).
Qed.
Lemma ev6 : forall me sel dl w e shape news, ctx me sel dl w -> regular me w (TDep e true shape news) -> good e -> bare w -> settled w ->
  (forall s, ~ its_set me w s) -> t_dep (tstep dl w (TDep e true shape news)) = None.
Proof.
  intros me sel dl w e shape news C R G B SW NS. destruct (bare_act _ _ _ _ _ C R I B) as (BA & _). destruct C as (T & SE & MD & D).
  destruct (t_dep w) as [p|] eqn:P; [|unfold tstep, settle; cbn [act t_dep]; rewrite P; cbn; rewrite P; reflexivity].
  assert (HP : In ours (p_finalizers p)) by (apply (bare_has _ _ (D p P)); [apply SW, P|apply B, P]).
  destruct (dep_pass _ _ dl _ _ _ _ _ _ T SE P R) as (q & sets1 & nn & E & F2 & IN & ND & NE & PO). destruct PO as (_ & _ & _ & _ & PO).
  destruct (PO (D p P) eq_refl G HP) as (_ & PO2). rewrite E in BA. specialize (BA _ eq_refl). unfold tstep, settle. rewrite E. cbn in *. unfold settleParent. cbn.
  rewrite (D p P). destruct q as [|x q]; [reflexivity|]. exfalso. apply PO2; [|destruct (BA x (or_introl eq_refl)) as [<-|[]]; left; reflexivity].
  intros x0 X O. apply in_map_iff in X as (s & <- & S). exact (NS s (conj S O)).
Qed.
Lemma ev2 : forall me sel dl w n e news, ctx me sel dl w -> regular me w (TPass n e true news) -> good e -> P1 me w -> P2 me n (tstep dl w (TPass n e true news)).
Proof.
  intros me sel dl w n e news C R G P s' m' (S & SO) N M O. apply settle_set in S as (S & _). apply settle_mach in M as (M & _).
  destruct (mach_back _ _ _ _ _ _ _ C R P (conj S SO) M O) as (m & s & A & (B & B2 & _) & D & F & _ & _). destruct C as (T & SE & MD & DY).
  pose proof (find_name _ t_obj (t_sets w) s (ti_ds _ _ _ T) (proj1 A)) as FS. rewrite <- B, N in FS.
  destruct (set_pass _ _ dl _ _ _ _ _ _ T FS R) as (q & m1 & nn & E & F2 & IN & ND & NE & PO). destruct PO as (_ & _ & _ & _ & PO).
  destruct (ti_mheld _ _ _ T m _ D F) as (x & X1 & X2 & X3). assert (x = s) by (apply (uid_eq _ _ _ _ _ T); auto; apply A). subst x.
  destruct (PO (P s A) eq_refl G X3) as (PO1 & _). apply PO1; [|rewrite <- B2; exact O]. rewrite E in M. cbn in M.
  apply in_app_or in M as [M|M]; apply in_or_app; [left; apply in_map, M|right]. apply in_map_iff in M as (k & <- & K). cbn [m_obj]. exact (in_map _ _ _ K).
Qed.
Lemma ev5 : forall me sel dl w n e news, ctx me sel dl w -> regular me w (TPass n e true news) -> good e -> P1 me w -> bare w -> settled w ->
  (forall m, ~ its_mach me w m) -> P5 me n (tstep dl w (TPass n e true news)).
Proof.
  intros me sel dl w n e news C R G P BW SW NM s' (S & SO) N. apply settle_set in S as (S & ST).
  destruct (set_back _ _ _ _ _ _ C R (conj S SO)) as (s & A & (B & B2 & _ & B4)).
  destruct (bare_act _ _ _ _ _ C R I BW) as (_ & BA & _). specialize (BA s' S). destruct C as (T & SE & MD & DY).
  pose proof (find_name _ t_obj (t_sets w) s (ti_ds _ _ _ T) (proj1 A)) as FS. rewrite <- B, N in FS.
  assert (HP : In ours (t_fins s)) by (apply (bare_has _ _ (P s A)); [apply SW, A|apply BW, A]).
  destruct (set_pass _ _ dl _ _ _ _ _ _ T FS R) as (q & m1 & nn & E & F2 & IN & ND & NE & PO). destruct PO as (_ & _ & _ & _ & PO).
  destruct (PO (P s A) eq_refl G HP) as (_ & PO2). rewrite E in S. cbn in S. apply in_onset in S as (y & Y1 & [(Y2 & ->)|(Y2 & ->)]); [|congruence].
  rewrite bare_gone in ST; [discriminate|apply B4, P, A|exact BA|]. cbn. apply PO2. intros x X O. apply in_map_iff in X as (m & <- & M).
  apply (NM m). split; [exact M|]. exists s. auto.
Qed.
Lemma mach_find : forall me sel w m n, TI me sel w -> In m (t_machs w) -> o_name (m_obj m) = n -> findMach n (t_machs w) = Some m.
Proof. intros me sel w m n T M <-. apply (find_name _ m_obj _ m (ti_dm _ _ _ T) M). Qed.
Lemma ev3 : forall me sel dl w n, ctx me sel dl w -> P1 me w -> P2all me w -> P3 me n (tstep dl w (TVmGone n)).
Proof.
  intros me sel dl w n C P A m' M N V. destruct (mach_back_step _ _ _ _ _ _ C (I : regular me w (TVmGone n)) P M) as (m & M1 & M2 & _). destruct C as (T & _).
  pose proof (mach_find _ _ _ m n T (proj1 M1) (eq_trans (eq_sym M2) N)) as F. unfold tstep, settle in V. cbn [act] in V. rewrite F, (A m M1) in V. cbn in V.
  apply filter_In in V as (_ & V). rewrite Nat.eqb_refl in V. discriminate.
Qed.
Lemma ev4 : forall me sel dl w n, ctx me sel dl w -> P1 me w -> P2all me w -> P3 me n w -> bare w -> P4 me n (tstep dl w (TRelease n)).
Proof.
  intros me sel dl w n C P A Q B m' M N. destruct (mach_back_step _ _ _ _ _ _ C (I : regular me w (TRelease n)) P M) as (m & M1 & M2 & M3). 
  destruct M as (M & _). apply settle_mach in M as (M & ST). destruct (bare_act _ _ _ _ _ C (I : regular me w (TRelease n)) I B) as (_ & _ & BA). specialize (BA m' M). destruct C as (T & _).
  pose proof (mach_find _ _ _ m n T (proj1 M1) (eq_trans (eq_sym M2) N)) as F. cbn [act] in M. rewrite F, (A m M1) in M. cbn [andb] in M.
  assert (V : existsb (Nat.eqb n) (t_vms w) = false).
  { destruct (existsb _ _) eqn:V; [|reflexivity]. apply existsb_exists in V as (v & V1 & V2). apply Nat.eqb_eq in V2. subst v. exfalso. exact (Q m M1 (eq_trans (eq_sym M2) N) V1). }
  rewrite V in M. cbn in M. apply in_onmach in M as (y & Y1 & [(Y2 & ->)|(Y2 & ->)]); [|congruence].
  rewrite bare_gone in ST; [discriminate|apply M3, A, M1|exact BA|]. cbn. intros X. apply del_in in X as (_ & X). apply X. reflexivity.
Qed.

(** *** Runs *)
Definition keeps (me : nat) (dl : list (string * string)) (I : Tree -> Prop) : Prop := forall w op, no_added op -> regular me w op -> I w -> I (tstep dl w op).
Lemma keeps_run : forall me dl I w l w', keeps me dl I -> trun me dl w l w' -> Forall no_added l -> I w -> I w'.
Proof. intros me dl I w l w' K R. induction R; intros N; inversion N; subst; auto. Qed.
(** An event that happens and whose effect stays. *)
Lemma event_run : forall me dl (J Q : Tree -> Prop) (ev : TOp -> Prop) w l w', keeps me dl J -> keeps me dl (fun w => J w /\ Q w) ->
  (forall w op, no_added op -> regular me w op -> ev op -> J w -> Q (tstep dl w op)) ->
  trun me dl w l w' -> Forall no_added l -> (exists op, In op l /\ ev op) -> J w -> J w' /\ Q w'.
Proof.
  intros me dl J Q ev w l w' K1 K2 E R. induction R as [w|w op l w' R1 R2 IH]; intros N (o & X & Y) H; [destruct X|]. inversion N as [|? ? N1 N2]; subst.
  destruct X as [->|X]; [|apply IH; eauto; apply K1; auto]. apply (keeps_run _ _ _ _ _ _ K2 R2 N2). split; [apply K1; auto|]. apply (E w o); auto.
Qed.
Lemma trun_app : forall me dl l1 w l2 w', trun me dl w (l1 ++ l2) w' -> exists v, trun me dl w l1 v /\ trun me dl v l2 w'.
Proof.
  induction l1 as [|op l1 IH]; intros w l2 w' R; [exists w; split; [constructor|exact R]|]. cbn in R. inversion R as [|? ? ? ? R1 R2]; subst.
  destruct (IH _ _ _ R2) as (v & A & B). exists v. split; [constructor; assumption|exact B].
Qed.

Definition J0 me sel dl (w : Tree) : Prop := ctx me sel dl w /\ bare w /\ settled w.
Definition J1 me sel dl (w : Tree) : Prop := J0 me sel dl w /\ P1 me w.
Definition J2 me sel dl (w : Tree) : Prop := J1 me sel dl w /\ P2all me w.
Lemma k0 : forall me sel dl, keeps me dl (J0 me sel dl).
Proof. intros me sel dl w op N R (C & B & S). split; [apply ctx_step; auto|]. split; [eapply bare_step; eauto|apply settled_step]. Qed.
Lemma k1 : forall me sel dl, keeps me dl (J1 me sel dl).
Proof. intros me sel dl w op N R (C & B). split; [apply k0; auto|]. eapply p1_step; eauto. apply C. Qed.
Lemma k2 : forall me sel dl, keeps me dl (J2 me sel dl).
Proof. intros me sel dl w op N R (C & B). split; [apply k1; auto|]. eapply p2all_step; eauto; apply C. Qed.

Lemma keeps_and : forall me dl (J Q : Tree -> Prop), keeps me dl J -> (forall w op, no_added op -> regular me w op -> J w -> Q w -> Q (tstep dl w op)) -> keeps me dl (fun w => J w /\ Q w).
Proof. intros me dl J Q K S w op N R (A & B). split; [apply K; auto|apply S; auto]. Qed.

(** Names of the deployment's sets and machines only disappear. *)
Lemma sets_back_run : forall me sel dl w l w' s', J0 me sel dl w -> trun me dl w l w' -> Forall no_added l -> its_set me w' s' ->
  exists s, its_set me w s /\ o_name (t_obj s) = o_name (t_obj s').
Proof.
  intros me sel dl w l w' s' J R N S. revert J. induction R as [w|w op l w' R1 R2 IH]; intros J; [exists s'; auto|]. inversion N as [|? ? N1 N2]; subst.
  destruct (IH N2 S (k0 _ _ _ _ _ N1 R1 J)) as (s & A & B). destruct (set_back_step _ _ _ _ _ _ (proj1 J) R1 A) as (x & X1 & X2 & _). exists x. split; [exact X1|congruence].
Qed.
Lemma machs_back_run : forall me sel dl w l w' m', J1 me sel dl w -> trun me dl w l w' -> Forall no_added l -> its_mach me w' m' ->
  exists m, its_mach me w m /\ o_name (m_obj m) = o_name (m_obj m').
Proof.
  intros me sel dl w l w' s' J R N S. revert J. induction R as [w|w op l w' R1 R2 IH]; intros J; [exists s'; auto|]. inversion N as [|? ? N1 N2]; subst.
  destruct (IH N2 S (k1 _ _ _ _ _ N1 R1 J)) as (s & A & B). destruct (mach_back_step _ _ _ _ _ _ (proj1 (proj1 J)) R1 (proj2 J) A) as (x & X1 & X2 & _). exists x. split; [exact X1|congruence].
Qed.

(** A machine of the deployment's stays one until it is gone. *)
Definition track (me n : nat) (w : Tree) : Prop := forall m, In m (t_machs w) -> o_name (m_obj m) = n -> its_mach me w m.
Lemma track_step : forall me sel dl w op n, ctx me sel dl w -> regular me w op -> ~ made_anew n op -> track me n w -> track me n (tstep dl w op).
Proof.
  intros me sel dl w op n C R NM T m' M N. pose proof (ctx_step _ _ _ _ _ C R) as (TI' & _). pose proof M as M'. apply settle_mach in M' as (M' & _). destruct C as (TW & SE & MD & D).
  destruct (act_machs _ _ dl _ _ _ TW R M') as [(m & M1 & M2 & _ & M4)|(MK & _)].
  2:{ exfalso. apply NM. rewrite <- N. destruct op; exact MK. }
  destruct (T m M1 (eq_trans (eq_sym M2) N)) as (_ & s & (S1 & S2) & S3).
  assert (O : owned (m_obj m') (o_uid (t_obj s))). { destruct M4 as [M4|(M4 & _)]; [unfold owned in *; rewrite M4; exact S3|]. exfalso. exact (orphan_not _ _ M4 S3). }
  split; [exact M|]. destruct (ti_mheld _ _ _ TI' m' _ M O) as (x' & X1 & X2 & _). exists x'. rewrite X2. split; [|exact O]. split; [exact X1|].
  pose proof X1 as X1'. apply settle_set in X1' as (X1' & _). destruct (act_sets _ _ dl _ _ _ TW SE D R X1') as [(x & Y1 & Y2 & Y3 & Y4 & _)|(_ & Y)].
  - assert (x = s) by (apply (uid_eq _ _ _ _ _ TW); auto; congruence). subst x. unfold owned in *. rewrite Y4. exact S2.
  - exfalso. apply Y. rewrite <- (ti_uid _ _ _ TI' x' X1), X2, (ti_uid _ _ _ TW s S1). apply in_map_iff. exists s. auto.
Qed.
Lemma track_run : forall me sel dl w l w' n, ctx me sel dl w -> trun me dl w l w' -> (forall op, In op l -> ~ made_anew n op) -> track me n w -> track me n w'.
Proof.
  intros me sel dl w l w' n C R. induction R as [w|w op l w' R1 R2 IH]; intros N T; [exact T|]. apply IH; [apply ctx_step; auto|intros o X; apply N; right; exact X|].
  eapply track_step; eauto. apply N. left. reflexivity.
Qed.

Lemma ti_start : forall me sel w, start me sel w -> TI me sel w.
Proof.
  intros me sel w ((f & A) & B & C & D). split; rewrite ?B, ?C, ?D; cbn; try (constructor; fail); try (intros; contradiction).
  intros p P. rewrite A in P. injection P as <-. auto.
Qed.
Lemma settled_run : forall me sel dl w0 l w, start me sel w0 -> trun me dl w0 l w -> settled w.
Proof.
  intros me sel dl w0 l w S R. assert (A : settled w0).
  { destruct S as ((f & A) & B & _). split; [intros p P; rewrite A in P; injection P as <-; reflexivity|rewrite B; intros s []]. }
  clear S. induction R; auto using settled_step.
Qed.

Lemma dep_stays_gone : forall dl v op, t_dep v = None -> t_dep (tstep dl v op) = None.
Proof.
  intros dl v op DN. enough (A : t_dep (act dl v op) = None) by (unfold tstep, settle; cbn; rewrite A; reflexivity).
  destruct op as [e' v' sh nw|n e' v' nw|[]|[]|[]|n|n|n|n|s|m]; cbn [act refin]; rewrite ?DN; cbn; auto.
  - destruct (findSet n (t_sets v)); [|exact DN]. destruct (reconcileSet _ _ _ _ _ _ _ _). reflexivity.
  - destruct (findMach n (t_machs v)) as [mm|]; [destruct (o_deleting (m_obj mm))|]; auto.
  - destruct (findMach n (t_machs v)) as [mm|]; [destruct (_ && _)|]; auto.
  - destruct (findMach n (t_machs v)) as [mm|]; [destruct (o_deleting (m_obj mm))|]; auto.
  - destruct (findMach n (t_machs v)) as [mm|]; [destruct (_ && _)|]; auto.
Qed.

Lemma all_gone : forall me sel dl w l1 w1 l2 w2 l3 w3 l4 w4 l5 w5, J0 me sel dl w ->
  Forall no_added l1 -> Forall no_added l2 -> Forall no_added l3 -> Forall no_added l4 -> Forall no_added l5 ->
  trun me dl w l1 w1 -> dep_pass_in l1 ->
  trun me dl w1 l2 w2 -> (forall s, its_set me w1 s -> set_pass_in (o_name (t_obj s)) l2) ->
  trun me dl w2 l3 w3 -> (forall m, its_mach me w2 m -> before (TVmGone (o_name (m_obj m))) (TRelease (o_name (m_obj m))) l3) ->
  trun me dl w3 l4 w4 -> (forall s, its_set me w3 s -> set_pass_in (o_name (t_obj s)) l4) ->
  trun me dl w4 l5 w5 -> dep_pass_in l5 ->
  t_dep w5 = None /\ (forall s, ~ its_set me w5 s) /\ TI me sel w5.
Proof.
  intros me sel dl w l1 w1 l2 w2 l3 w3 l4 w4 l5 w5 J N1 N2 N3 N4 N5 R1 E1 R2 E2 R3 E3 R4 E4 R5 E5.
  assert (A1 : J1 me sel dl w1).
  { destruct E1 as (e & shape & news & G & X).
    apply (event_run me dl (J0 me sel dl) (P1 me) (fun op => op = TDep e true shape news) w l1 w1); auto using k0.
    - exact (k1 me sel dl).
    - intros v op _ R -> (C & _). eapply ev1; eauto.
    - exists (TDep e true shape news). auto. }
  assert (A2 : J2 me sel dl w2).
  { split; [apply (keeps_run _ _ _ _ _ _ (k1 me sel dl) R2 N2 A1)|]. intros m (M & s & S & O).
    destruct (sets_back_run _ _ _ _ _ _ _ (proj1 A1) R2 N2 S) as (s0 & S0 & EQ). destruct (E2 s0 S0) as (e & news & G & X).
    assert (Q : J1 me sel dl w2 /\ P2 me (o_name (t_obj s0)) w2).
    { apply (event_run me dl (J1 me sel dl) (P2 me (o_name (t_obj s0))) (fun op => op = TPass (o_name (t_obj s0)) e true news) w1 l2 w2); auto using k1.
      - apply keeps_and; [apply k1|]. intros v op _ R ((C & _) & P) Q. eapply p2_step; eauto.
      - intros v op _ R -> ((C & _) & P). eapply ev2; eauto.
      - eexists. split; [exact X|reflexivity]. }
    apply (proj2 Q s m S (eq_sym EQ) M O). }
  assert (A3 : J2 me sel dl w3) by exact (keeps_run _ _ _ _ _ _ (k2 me sel dl) R3 N3 A2).
  assert (A3' : forall m, ~ its_mach me w3 m).
  { intros m M. destruct (machs_back_run _ _ _ _ _ _ _ (proj1 A2) R3 N3 M) as (m0 & M0 & EQ). destruct (E3 m0 M0) as (a & b & c & EL). subst l3. remember (o_name (m_obj m0)) as n.
    replace (a ++ TVmGone n :: b ++ TRelease n :: c) with ((a ++ [TVmGone n] ++ b) ++ TRelease n :: c) in R3, N3 by (rewrite <- !app_assoc; reflexivity).
    apply trun_app in R3 as (v & V1 & V2). apply Forall_app in N3 as (NA & NC).
    assert (Q : J2 me sel dl v /\ P3 me n v).
    { apply (event_run me dl (J2 me sel dl) (P3 me n) (fun op => op = TVmGone n) w2 (a ++ [TVmGone n] ++ b) v); auto using k2.
      - apply keeps_and; [apply k2|]. intros x op _ R (((C & _) & P) & Z) Q. eapply p3_step; eauto.
      - intros x op _ R -> (((C & _) & P) & Z). eapply ev3; eauto.
      - exists (TVmGone n). split; [|reflexivity]. apply in_or_app. right. left. reflexivity. }
    inversion V2 as [|? ? ? ? V3 V4]; subst. inversion NC as [|? ? _ NC2]; subst. destruct Q as (((C & P) & Z) & Q).
    assert (F : P4 me (o_name (m_obj m0)) (tstep dl v (TRelease (o_name (m_obj m0))))) by (destruct C as (C & B & S); eapply ev4; eauto).
    assert (F2 : J2 me sel dl w3 /\ P4 me (o_name (m_obj m0)) w3).
    { apply (keeps_run me dl (fun w => J2 me sel dl w /\ P4 me (o_name (m_obj m0)) w) _ _ _) with (2 := V4); [|exact NC2|].
      - apply keeps_and; [apply k2|]. intros x op _ R (((CC & _) & PP) & ZZ) QQ. eapply p4_step; eauto.
      - split; [apply k2; [exact I|exact V3|split; [split|]; auto]|exact F]. }
    apply (proj2 F2 m M). congruence. }
  assert (K : keeps me dl (fun w => J1 me sel dl w /\ forall m, ~ its_mach me w m)).
  { apply keeps_and; [apply k1|]. intros x op _ R ((C & _) & P) Q m M. destruct (mach_back_step _ _ _ _ _ _ C R P M) as (m0 & M0 & _). exact (Q m0 M0). }
  assert (A4 : forall s, ~ its_set me w4 s).
  { intros s S. destruct (sets_back_run _ _ _ _ _ _ _ (proj1 (proj1 A3)) R4 N4 S) as (s0 & S0 & EQ). destruct (E4 s0 S0) as (e & news & G & X).
    assert (Q : (J1 me sel dl w4 /\ forall m, ~ its_mach me w4 m) /\ P5 me (o_name (t_obj s0)) w4).
    { apply (event_run me dl (fun w => J1 me sel dl w /\ forall m, ~ its_mach me w m) (P5 me (o_name (t_obj s0))) (fun op => op = TPass (o_name (t_obj s0)) e true news) w3 l4 w4); auto.
      - apply keeps_and; [exact K|]. intros v op _ R (((C & _) & P) & _) Q. eapply p5_step; eauto.
      - intros v op _ R -> (((C & B & S') & P) & Z). eapply ev5; eauto.
      - eexists. split; [exact X|reflexivity].
      - split; [apply A3|exact A3']. }
    apply (proj2 Q s S). congruence. }
  assert (B4 : J1 me sel dl w4) by exact (keeps_run _ _ _ _ _ _ (k1 me sel dl) R4 N4 (proj1 A3)).
  assert (K5 : keeps me dl (fun w => J1 me sel dl w /\ forall s, ~ its_set me w s)).
  { apply keeps_and; [apply k1|]. intros x op _ R ((C & _) & P) Q m M. destruct (set_back_step _ _ _ _ _ _ C R M) as (m0 & M0 & _). exact (Q m0 M0). }
  destruct E5 as (e & shape & news & G & X).
  assert (Q : (J1 me sel dl w5 /\ forall s, ~ its_set me w5 s) /\ t_dep w5 = None).
  { apply (event_run me dl (fun w => J1 me sel dl w /\ forall s, ~ its_set me w s) (fun w => t_dep w = None) (fun op => op = TDep e true shape news) w4 l5 w5); auto.
    - apply keeps_and; [exact K5|]. intros v op _ R _ DN. apply dep_stays_gone, DN.
    - intros v op _ R -> (((C & B & S) & P) & Z). eapply ev6; eauto.
    - eexists. split; [exact X|reflexivity]. }
  destruct Q as ((((C & _) & _) & Q) & DN). split; [exact DN|]. split; [exact Q|]. apply C.
Qed.
