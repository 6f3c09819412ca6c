(** Lemmas for the MachineSet properties. *)
Require Import Coq.ZArith.ZArith Coq.Lists.List Coq.Strings.String Coq.Strings.Ascii Coq.Bool.Bool Coq.micromega.Lia Coq.micromega.ZifyBool.
Require Import Coq.Sorting.Permutation Coq.Sorting.Sorted.
From Verif Require Import Sort MSetModel MSetSpec.
Import ListNotations.
Open Scope string_scope.
Open Scope list_scope.
Open Scope Z_scope.

(** Slow start. *)
Lemma succeeded_nsucc : forall f n from, succeeded f from n = nsucc f from n.
Proof.
  induction n as [|n IH]; intro from; [reflexivity|]. unfold nsucc in *. simpl. rewrite IH. destruct (f from); reflexivity.
Qed.

Lemma nsucc_le : forall f n from, (nsucc f from n <= n)%nat.
Proof. induction n as [|n IH]; intro from; unfold nsucc in *; simpl; [lia|]. specialize (IH (S from)). destruct (f from); simpl; lia. Qed.

Lemma nsucc_app : forall f a b from, nsucc f from (a + b) = (nsucc f from a + nsucc f (from + a) b)%nat.
Proof.
  intros. unfold nsucc. rewrite seq_app, filter_app, app_length. reflexivity.
Qed.

Lemma nsucc_all : forall f n from, nsucc f from n = n -> forall i, (from <= i < from + n)%nat -> f i = true.
Proof.
  induction n as [|n IH]; intros from H i Hi; [lia|]. unfold nsucc in *. simpl in H.
  pose proof (nsucc_le f n (S from)) as Hle. unfold nsucc in Hle.
  destruct (f from) eqn:E; simpl in H; [|lia]. destruct (Nat.eq_dec i from) as [->|Hn]; [exact E|]. apply (IH (S from)); lia.
Qed.

Lemma nsucc_not_all : forall f n from, (nsucc f from n < n)%nat -> exists i, (from <= i < from + n)%nat /\ f i = false.
Proof.
  induction n as [|n IH]; intros from H; [lia|]. unfold nsucc in *. simpl in H.
  destruct (f from) eqn:E; simpl in H.
  - destruct (IH (S from)) as (i & Hi & Ei); [lia|]. exists i. split; [lia|exact Ei].
  - exists from. split; [lia|exact E].
Qed.

Lemma slow_loop : forall fuel f done rem b c s e, (rem < fuel)%nat -> (b <= rem)%nat -> (b = 0 -> rem = 0)%nat -> (b <= done + 1)%nat ->
  slowLoop fuel f done rem b = (c, s, e) ->
  (c <= rem)%nat /\ s = nsucc f done c /\ (e = false -> c = rem /\ s = c) /\
  (e = true -> exists d b', c = (d + b')%nat /\ (b' <= done + d + 1)%nat /\
     (forall i, (done <= i < done + d)%nat -> f i = true) /\ (exists i, (done + d <= i < done + c)%nat /\ f i = false)).
Proof.
  induction fuel as [|fuel IH]; intros f done rem b c s e Hf Hb H0 Hd H; [lia|].
  destruct b as [|b']; cbn [slowLoop] in H; [injection H as <- <- <-; specialize (H0 eq_refl); subst; repeat split; try lia; discriminate|].
  remember (S b') as b eqn:Hbb. rewrite succeeded_nsucc in H. pose proof (nsucc_le f b done) as Hle.
  destruct (Nat.ltb (nsucc f done b) b) eqn:E.
  - injection H as <- <- <-. split; [lia|]. split; [reflexivity|]. split; [discriminate|]. intros _.
    exists 0%nat, b. split; [reflexivity|]. split; [lia|]. split; [intros; lia|].
    destruct (nsucc_not_all f b done) as (i & Hi & Ei); [apply Nat.ltb_lt; exact E|]. exists i. split; [lia|exact Ei].
  - apply Nat.ltb_ge in E. assert (nsucc f done b = b) as EB by lia.
    destruct (slowLoop fuel f (done + b) (rem - b) (Nat.min (2 * b) (rem - b))) as [[c' s'] e'] eqn:ER.
    rewrite EB in H. injection H as <- <- <-.
    destruct (IH f (done + b)%nat (rem - b)%nat (Nat.min (2 * b) (rem - b))%nat c' s' e' ltac:(lia) ltac:(lia) ltac:(lia) ltac:(lia) ER) as (A & B & C & D).
    split; [lia|]. split; [rewrite nsucc_app, EB, B; reflexivity|]. split.
    + intro He. destruct (C He) as (C1 & C2). split; lia.
    + intro He. destruct (D He) as (d & b2 & E1 & E2 & E3 & i & E4 & E5). exists (b + d)%nat, b2. split; [lia|]. split; [lia|]. split.
      * intros j Hj. destruct (Nat.lt_ge_cases j (done + b)); [apply (nsucc_all f b done EB); lia|apply E3; lia].
      * exists i. split; [lia|exact E5].
Qed.

Lemma slow_start : forall n f c s e, slowStartBatch n 1 f = (c, s, e) ->
  (c <= n)%nat /\ s = nsucc f 0 c /\ (e = false -> c = n /\ s = n) /\
  (e = true -> exists d b, c = (d + b)%nat /\ (b <= d + 1)%nat /\
     (forall i, (i < d)%nat -> f i = true) /\ (exists i, (d <= i < c)%nat /\ f i = false) /\ (c - s <= s + 1)%nat).
Proof.
  intros n f c s e H. unfold slowStartBatch in H.
  destruct (slow_loop (S n) f 0 n (Nat.min n 1) c s e ltac:(lia) ltac:(lia) ltac:(lia) ltac:(lia) H) as (A & B & C & D).
  split; [exact A|]. split; [exact B|]. split.
  - intro He. destruct (C He) as (C1 & C2). split; lia.
  - intro He. destruct (D He) as (d & b & E1 & E2 & E3 & i & E4 & E5). exists d, b. split; [exact E1|]. split; [lia|].
    split; [intros; apply E3; lia|]. split; [exists i; split; [lia|exact E5]|].
    assert (d <= s)%nat; [|lia]. rewrite B, E1, nsucc_app.
    assert (nsucc f 0 d = d) as ->; [|lia]. clear - E3. 
    assert (forall n from, (forall i, (from <= i < from + n)%nat -> f i = true) -> nsucc f from n = n) as HH.
    { induction n as [|n IH]; intros from Hf; [reflexivity|]. unfold nsucc in *. simpl. rewrite Hf by lia. simpl. rewrite IH; [reflexivity|]. intros; apply Hf; lia. }
    apply HH. intros; apply E3; lia.
Qed.

(** Order. *)
Lemma prio_eq : forall m, machinePriority m = prio m.
Proof. intro m. unfold machinePriority, prio. destruct (m_prio m); reflexivity. Qed.

Lemma rank_eq : forall p, phaseRank p = Z.of_nat (rank p).
Proof.
  intro p. unfold phaseRank, rank, phase_order. cbn [index_of].
  repeat match goal with |- context [String.eqb p ?s] => rewrite (String.eqb_sym p s) end.
  repeat match goal with |- context [String.eqb ?s p] => destruct (String.eqb s p); [reflexivity|] end. reflexivity.
Qed.

Lemma less_before : forall a b, Less a b = true <-> before a b.
Proof.
  intros a b. unfold Less, before. rewrite !prio_eq, !rank_eq.
  destruct (prio a =? prio b) eqn:E1; simpl; [|split; intros; lia].
  destruct (Z.of_nat (rank (m_phase a)) =? Z.of_nat (rank (m_phase b))) eqn:E2; simpl; [|split; intros; lia].
  destruct (m_ctime a =? m_ctime b) eqn:E3; simpl; split; intros; try discriminate; lia.
Qed.

Lemma before_trans_neg : forall a b c, ~ before b a -> ~ before c b -> ~ before c a.
Proof. unfold before. intros. lia. Qed.

Lemma before_asym : forall a b, before a b -> ~ before b a.
Proof. unfold before. intros. lia. Qed.

Lemma leb_total : total (fun a b => negb (Less b a)).
Proof.
  intros a b. destruct (Less b a) eqn:E; [|left; reflexivity]. right. apply negb_true_iff.
  destruct (Less a b) eqn:E2; [|reflexivity]. apply less_before in E, E2. exfalso. eapply before_asym; eauto.
Qed.
Lemma leb_trans : transitive (fun a b => negb (Less b a)).
Proof.
  intros a b c H1 H2. apply negb_true_iff in H1, H2. apply negb_true_iff.
  destruct (Less c a) eqn:E; [|reflexivity]. exfalso. apply less_before in E. eapply before_trans_neg; [| |exact E].
  - rewrite <- less_before, H1. discriminate.
  - rewrite <- less_before, H2. discriminate.
Qed.

Lemma sorted_split : forall (R : Mach -> Mach -> Prop) l k x y, StronglySorted R l -> In x (firstn k l) -> In y (skipn k l) -> R x y.
Proof.
  intros R l. induction l as [|a l IH]; intros k x y HS Hx Hy; [destruct k; contradiction|]. inversion HS as [|? ? H1 H2]; subst.
  destruct k as [|k]; [contradiction|]. simpl in Hx, Hy. destruct Hx as [<-|Hx].
  - rewrite Forall_forall in H2. apply H2. rewrite <- (firstn_skipn k l). apply in_or_app. right. exact Hy.
  - eapply IH; eauto.
Qed.

Lemma to_delete : forall l k, (k <= List.length l)%nat -> exists rest,
  Permutation l (getMachinesToDelete l k ++ rest) /\ List.length (getMachinesToDelete l k) = k /\
  forall x y, In x (getMachinesToDelete l k) -> In y rest -> ~ before y x.
Proof.
  intros l k Hk. unfold getMachinesToDelete. destruct (Nat.ltb k (List.length l)) eqn:E.
  - set (s := isort _ l). exists (skipn k s). rewrite firstn_skipn. split; [apply isort_perm|].
    split; [rewrite firstn_length; unfold s; rewrite isort_length; lia|].
    intros x y Hx Hy. assert (negb (Less y x) = true) as HH.
    { apply (sorted_split (fun a b => negb (Less b a) = true) s k x y); auto. apply isort_sorted; [apply leb_total|apply leb_trans]. }
    rewrite <- less_before. destruct (Less y x); [discriminate|discriminate].
  - apply Nat.ltb_ge in E. exists []. rewrite app_nil_r, firstn_all2 by lia. split; [reflexivity|]. split; [lia|]. intros x y _ [].
Qed.

(** The same for every sort. *)
Lemma any_sort : forall l s k, Permutation l s -> StronglySorted (fun a b => ~ before b a) s ->
  (k <= List.length l)%nat ->
  List.length (firstn k s) = k /\ Permutation l (firstn k s ++ skipn k s) /\
  forall x y, In x (firstn k s) -> In y (skipn k s) -> ~ before y x.
Proof.
  intros l s k HP HS Hk. split; [rewrite firstn_length, <- (Permutation_length HP); lia|].
  split; [rewrite firstn_skipn; exact HP|]. intros. eapply (sorted_split (fun a b => ~ before b a)); eauto.
Qed.

(** Active is serving. *)
Lemma active_serving : forall m, isActive m = servingb m.
Proof.
  intro m. unfold isActive, servingb, isStale, IsMachineActive, IsMachineFailed, IsMachineTriggeredForDeletion.
  destruct (String.eqb (m_phase m) "Failed"), (String.eqb (m_phase m) "Terminating"), (String.eqb (m_prio m) "1"), (String.eqb (m_trigger m) "true"); reflexivity.
Qed.
Lemma filter_active : forall l, filter isActive l = filter servingb l.
Proof. intro l. apply filter_ext. exact active_serving. Qed.
Lemma stale_not_serving : forall m, isStale m = true -> servingb m = false.
Proof. intros m H. rewrite <- active_serving. unfold isActive. rewrite H. reflexivity. Qed.
Lemma servingb_iff : forall m, servingb m = true <-> serving m.
Proof.
  intro m. unfold servingb, serving. rewrite !andb_true_iff, !negb_true_iff, !String.eqb_neq. tauto.
Qed.

Lemma terminate_serving : forall api d m, servingb (terminate api d m) = true -> servingb m = true.
Proof.
  intros api d m. unfold terminate. destruct d; [auto|]. unfold servingb. cbn [m_phase m_prio m_trigger].
  destruct (a_status api (m_id m)); [|auto]. cbn. discriminate.
Qed.
Lemma terminate_id : forall api d m, m_id (terminate api d m) = m_id m.
Proof. intros. unfold terminate. destruct d; reflexivity. Qed.

Lemma filter_map_le : forall (g : Mach -> Mach) l, (forall m, In m l -> servingb (g m) = true -> servingb m = true) ->
  (List.length (filter servingb (map g l)) <= List.length (filter servingb l))%nat.
Proof.
  intros g l H. induction l as [|a l IH]; simpl; [lia|]. specialize (IH (fun m Hm => H m (or_intror Hm))).
  destruct (servingb (g a)) eqn:E; [rewrite (H a (or_introl eq_refl) E); simpl; lia|]. destruct (servingb a); simpl; lia.
Qed.

Lemma created_serving : forall now n from, filter servingb (created now from n) = created now from n /\ List.length (created now from n) = n.
Proof. induction n as [|n IH]; intro from; simpl; [auto|]. destruct (IH (S from)) as (A & B). rewrite A, B. auto. Qed.
Lemma created_id : forall now n from m, In m (created now from n) -> (from <= m_id m < from + n)%nat.
Proof. induction n as [|n IH]; intros from m H; simpl in H; [contradiction|]. destruct H as [<-|H]; [simpl; lia|]. apply IH in H. lia. Qed.

(** The effect of a reconcile. *)
Definition planned (w : World) := manageReplicas (w_spec w) (w_frozen w) (w_cache w).
Definition targeted (api : Api) (w : World) (m : Mach) : Mach :=
  match find (fun t => Nat.eqb (m_id t) (m_id m)) (pl_stale (planned w) ++ pl_surplus (planned w)) with
  | Some t => terminate api (m_deleting t) m | None => m end.

Lemma reconcile_eq : forall api now w c s e, slowStartBatch (pl_create (planned w)) 1 (a_create api) = (c, s, e) ->
  reconcileMachineSet api now w = mkW (w_spec w) (w_frozen w) (map (targeted api w) (w_machines w) ++ created now (w_next w) s) (w_cache w) (w_next w + s).
Proof. intros api now w c s e H. unfold reconcileMachineSet. fold (planned w). rewrite H. reflexivity. Qed.

Lemma targeted_id : forall api w m, m_id (targeted api w m) = m_id m.
Proof. intros. unfold targeted. destruct (find _ _); [apply terminate_id|reflexivity]. Qed.
Lemma targeted_serving : forall api w m, servingb (targeted api w m) = true -> servingb m = true.
Proof. intros api w m. unfold targeted. destruct (find _ _); [apply terminate_serving|auto]. Qed.

Lemma plan_create : forall spec fr v, Z.of_nat (pl_create (manageReplicas spec fr v)) =
  if fr then 0 else Z.max 0 (Z.min (spec - nserving v) 100).
Proof.
  intros. unfold manageReplicas. rewrite filter_active. unfold nserving, BurstReplicas.
  destruct (_ <? 0) eqn:E; cbn [pl_create].
  - destruct fr; lia.
  - destruct (_ >? 0); cbn [pl_create]; destruct fr; lia.
Qed.

Lemma plan_surplus : forall spec fr v, 0 <= spec -> exists rest,
  Z.of_nat (List.length (pl_surplus (manageReplicas spec fr v))) = Z.max 0 (Z.min (nserving v - spec) 100) /\
  Permutation (filter servingb v) (pl_surplus (manageReplicas spec fr v) ++ rest) /\
  (forall x y, In x (pl_surplus (manageReplicas spec fr v)) -> In y rest -> ~ before y x).
Proof.
  intros spec fr v Hs. unfold manageReplicas. rewrite filter_active. unfold nserving, BurstReplicas.
  destruct (_ <? 0) eqn:E; cbn [pl_surplus].
  { exists (filter servingb v). simpl. split; [lia|]. split; [reflexivity|]. intros x y []. }
  destruct (_ >? 0) eqn:E2; cbn [pl_surplus].
  - set (k := Z.to_nat _). destruct (to_delete (filter servingb v) k) as (rest & A & B & C); [unfold k; lia|].
    exists rest. rewrite B. split; [unfold k; lia|]. auto.
  - exists (filter servingb v). simpl. split; [lia|]. split; [reflexivity|]. intros x y [].
Qed.

Lemma serving_reconcile : forall api now w, nserving (w_machines w) <= nserving (w_cache w) ->
  nserving (w_machines (reconcileMachineSet api now w)) <= Z.max (nserving (w_machines w)) (w_spec w).
Proof.
  intros api now w Hc. destruct (slowStartBatch (pl_create (planned w)) 1 (a_create api)) as [[c s] e] eqn:E.
  rewrite (reconcile_eq api now w c s e E). cbn [w_machines]. unfold nserving in *. rewrite filter_app, app_length.
  destruct (created_serving now s (w_next w)) as (-> & ->).
  pose proof (filter_map_le (targeted api w) (w_machines w) (fun m _ => targeted_serving api w m)) as HL.
  apply slow_start in E. destruct E as (A & B & C & _). pose proof (nsucc_le (a_create api) c 0) as HN.
  pose proof (plan_create (w_spec w) (w_frozen w) (w_cache w)) as HP. fold (planned w) in HP. unfold nserving in HP.
  destruct (w_frozen w); lia.
Qed.

(** Frozen. *)
Lemma frozen_plan : forall spec v, pl_create (manageReplicas spec true v) = 0%nat /\
  pl_stale (manageReplicas spec true v) = pl_stale (manageReplicas spec false v) /\
  pl_surplus (manageReplicas spec true v) = pl_surplus (manageReplicas spec false v).
Proof. intros. unfold manageReplicas. destruct (_ <? 0); [auto|]. destruct (_ >? 0); auto. Qed.

Lemma frozen_run : forall l w, w_frozen w = true -> Forall (fun o => o <> OFreeze false) l ->
  incl (map m_id (w_machines (run w l))) (map m_id (w_machines w)) /\ w_frozen (run w l) = true.
Proof.
  induction l as [|o l IH]; intros w Hw Hl; [split; [apply incl_refl|exact Hw]|]. inversion Hl as [|? ? H1 H2]; subst. simpl.
  assert (incl (map m_id (w_machines (step w o))) (map m_id (w_machines w)) /\ w_frozen (step w o) = true) as (A & B).
  { destruct o as [api now| |n|b|id ph|id]; simpl.
    - assert (pl_create (planned w) = 0%nat) as E0 by (unfold planned; rewrite Hw; apply frozen_plan).
      assert (slowStartBatch (pl_create (planned w)) 1 (a_create api) = (0, 0, false)%nat) as E by (rewrite E0; reflexivity).
      rewrite (reconcile_eq api now w _ _ _ E). cbn [w_machines w_frozen created]. rewrite app_nil_r. split; [|exact Hw].
      rewrite map_map. erewrite map_ext; [apply incl_refl|]. intro; apply targeted_id.
    - split; [apply incl_refl|exact Hw].
    - split; [apply incl_refl|exact Hw].
    - destruct b; [split; [apply incl_refl|reflexivity]|]. congruence.
    - split; [|exact Hw]. rewrite map_map. erewrite map_ext; [apply incl_refl|]. intro a. destruct (Nat.eqb _ _); reflexivity.
    - split; [|exact Hw]. intros x Hx. apply in_map_iff in Hx. destruct Hx as (m & <- & Hm). apply filter_In in Hm. apply in_map. tauto. }
  destruct (IH (step w o) B H2) as (C & D). split; [|exact D]. eapply incl_tran; eauto.
Qed.

(** Convergence. *)
Lemma wf_reconcile : forall api now w, wf w -> wf (reconcileMachineSet api now w).
Proof.
  intros api now w (A & B). destruct (slowStartBatch (pl_create (planned w)) 1 (a_create api)) as [[c s] e] eqn:E.
  rewrite (reconcile_eq api now w c s e E). unfold wf. cbn [w_machines w_next]. rewrite map_app, map_map.
  assert (map (fun x => m_id (targeted api w x)) (w_machines w) = map m_id (w_machines w)) as ->
    by (apply map_ext; intro; apply targeted_id).
  split.
  - assert (forall n from, NoDup (map m_id (created now from n))) as HN.
    { induction n as [|n IH]; intro from; simpl; constructor; auto. intro H. apply in_map_iff in H. destruct H as (m & E1 & Hm). apply created_id in Hm. lia. }
    assert (forall x, In x (map m_id (w_machines w)) -> ~ In x (map m_id (created now (w_next w) s))) as HD.
    { intros x Hx Hx2. apply in_map_iff in Hx, Hx2. destruct Hx as (a & Ea & Ha). destruct Hx2 as (b & Eb & Hb). apply created_id in Hb.
      rewrite Forall_forall in B. specialize (B a Ha). lia. }
    clear - A HN HD. induction (map m_id (w_machines w)) as [|x l IH]; simpl; [apply HN|].
    inversion A; subst. constructor.
    + intro H. apply in_app_or in H. destruct H as [H|H]; [contradiction|]. apply (HD x (or_introl eq_refl) H).
    + apply IH; [assumption|]. intros y Hy. apply HD. right; exact Hy.
  - apply Forall_app. split.
    + apply Forall_forall. intros m Hm. apply in_map_iff in Hm. destruct Hm as (a & <- & Ha). rewrite targeted_id.
      rewrite Forall_forall in B. specialize (B a Ha). lia.
    + apply Forall_forall. intros m Hm. apply created_id in Hm. lia.
Qed.

Lemma perm_serving_count : forall (tg : list Mach) l, NoDup (map m_id l) -> NoDup (map m_id tg) ->
  (forall t, In t tg -> In t l /\ servingb t = true) ->
  List.length (filter (fun m => servingb m && negb (existsb (fun t => Nat.eqb (m_id t) (m_id m)) tg)) l) =
  (List.length (filter servingb l) - List.length tg)%nat.
Proof.
  intros tg l HN HT Hin.
  set (q := fun m => existsb (fun t => Nat.eqb (m_id t) (m_id m)) tg).
  assert (List.length (filter servingb l) = List.length (filter (fun m => servingb m && negb (q m)) l) + List.length (filter (fun m => servingb m && q m) l))%nat as E1.
  { clear. induction l as [|a l IH]; simpl; [reflexivity|]. destruct (servingb a), (q a); simpl; lia. }
  assert (Permutation (filter (fun m => servingb m && q m) l) tg) as HP.
  { apply NoDup_Permutation.
    - apply NoDup_filter. eapply NoDup_map_inv; exact HN.
    - eapply NoDup_map_inv; exact HT.
    - intro x. rewrite filter_In. split.
      + intros (Hx & Hq). apply andb_prop in Hq. destruct Hq as (_ & Hq). apply existsb_exists in Hq. destruct Hq as (t & Ht & Et).
        apply Nat.eqb_eq in Et. destruct (Hin t Ht) as (Htl & _).
        assert (t = x) as <-; [|exact Ht]. clear - HN Htl Hx Et. induction l as [|a l IH]; [destruct Hx|]. simpl in HN. inversion HN as [|? ? N1 N2]; subst.
        destruct Htl as [->|Htl], Hx as [->|Hx]; auto.
        * exfalso. apply N1. rewrite Et. apply in_map; exact Hx.
        * exfalso. apply N1. rewrite <- Et. apply in_map; exact Htl.
      + intro Hx. destruct (Hin x Hx) as (A & B). split; [exact A|]. rewrite B. simpl. apply existsb_exists. exists x. split; [exact Hx|apply Nat.eqb_refl]. }
  apply Permutation_length in HP. unfold q in *. lia.
Qed.

Lemma find_existsb : forall (p : Mach -> bool) l, match find p l with Some _ => existsb p l = true | None => existsb p l = false end.
Proof. intros p l. induction l as [|a l IH]; simpl; [reflexivity|]. destruct (p a); simpl; auto. Qed.

Lemma one_round : forall now w, wf w -> settled (w_machines w) -> w_frozen w = false -> 0 <= w_spec w ->
  let w' := step (step w OObserve) (OReconcile allok now) in
  wf w' /\ settled (w_machines w') /\ w_frozen w' = false /\ w_spec w' = w_spec w /\
  (nserving (w_machines w) <= w_spec w -> nserving (w_machines w') = Z.min (w_spec w) (nserving (w_machines w) + 100)) /\
  (w_spec w <= nserving (w_machines w) -> nserving (w_machines w') = Z.max (w_spec w) (nserving (w_machines w) - 100)).
Proof.
  intros now w Hwf Hset Hfr Hsp w'. set (v := step w OObserve) in *. unfold w'. cbn [step].
  assert (wf v) as Hwv by exact Hwf. assert (w_machines v = w_machines w) as Em by reflexivity. assert (w_cache v = w_machines w) as Ec by reflexivity.
  destruct (slowStartBatch (pl_create (planned v)) 1 (a_create allok)) as [[c s] e] eqn:E.
  split; [apply wf_reconcile; exact Hwv|].
  rewrite (reconcile_eq allok now v c s e E). cbn [w_machines w_frozen w_spec].
  assert (s = pl_create (planned v)) as Es.
  { apply slow_start in E. destruct E as (_ & B & C & D). destruct e; [|destruct (C eq_refl); lia].
    destruct (D eq_refl) as (d & b & _ & _ & _ & (i & _ & Hi) & _). discriminate. }
  assert (settled (map (targeted allok v) (w_machines v) ++ created now (w_next v) s)) as Hset'.
  { apply Forall_app. split.
    - apply Forall_forall. intros m Hm Hd. apply in_map_iff in Hm. destruct Hm as (a & <- & Ha).
      destruct (servingb (targeted allok v a)) eqn:ES; [|reflexivity]. exfalso. pose proof (targeted_serving _ _ _ ES) as ESa.
      unfold targeted in Hd, ES. destruct (find _ _) as [t|] eqn:EF.
      + unfold terminate in *. destruct (m_deleting t) eqn:ET.
        * unfold settled in Hset; rewrite Forall_forall in Hset. rewrite Em in Ha. specialize (Hset a Ha Hd). congruence.
        * unfold servingb in ES. cbn in ES. discriminate.
      + unfold settled in Hset; rewrite Forall_forall in Hset. rewrite Em in Ha. specialize (Hset a Ha Hd). congruence.
    - apply Forall_forall. intros m Hm Hd. exfalso. clear - Hm Hd. revert Hm. generalize (w_next v). induction s as [|s IH]; intros from Hm; simpl in Hm; [contradiction|].
      destruct Hm as [<-|Hm]; [discriminate|eapply IH; eauto]. }
  split; [exact Hset'|]. split; [exact Hfr|]. split; [reflexivity|].
  assert (List.length (filter servingb (map (targeted allok v) (w_machines v))) = List.length (filter servingb (w_machines w)) - List.length (pl_surplus (planned v)))%nat as EL.
  { rewrite <- (perm_serving_count (pl_surplus (planned v)) (w_machines w)).
    - rewrite Em. assert (forall l, incl l (w_machines w) ->
        List.length (filter servingb (map (targeted allok v) l)) =
        List.length (filter (fun m => servingb m && negb (existsb (fun t => Nat.eqb (m_id t) (m_id m)) (pl_surplus (planned v)))) l)) as HH.
      { induction l as [|a l IH]; intro Hl; [reflexivity|]. simpl.
        assert (servingb (targeted allok v a) = servingb a && negb (existsb (fun t => Nat.eqb (m_id t) (m_id a)) (pl_surplus (planned v)))) as Ea.
        { assert (In a (w_machines w)) as Hain by (apply Hl; left; reflexivity).
          assert (forall t, In t (pl_stale (planned v)) -> m_id t = m_id a -> servingb a = false) as Hstale.
          { intros t Ht Eid. unfold planned, manageReplicas in Ht.
            assert (In t (filter isStale (w_machines w))) as Ht' by (destruct (_ <? 0); [exact Ht|destruct (_ >? 0); exact Ht]).
            apply filter_In in Ht'. destruct Ht' as (Ht1 & Ht2). apply stale_not_serving in Ht2.
            assert (t = a) as <-; [|exact Ht2]. destruct Hwf as (HN & _). clear - HN Ht1 Hain Eid.
            induction (w_machines w) as [|x l IH]; [destruct Hain|]. simpl in HN. inversion HN as [|? ? N1 N2]; subst.
            destruct Ht1 as [->|Ht1], Hain as [->|Hain]; auto.
            - exfalso. apply N1. rewrite Eid. apply in_map; exact Hain.
            - exfalso. apply N1. rewrite <- Eid. apply in_map; exact Ht1. }
          destruct (servingb a) eqn:ESa; simpl.
          2:{ destruct (servingb (targeted allok v a)) eqn:X; [|reflexivity]. apply targeted_serving in X. congruence. }
          unfold targeted.
          pose proof (find_existsb (fun t => Nat.eqb (m_id t) (m_id a)) (pl_stale (planned v) ++ pl_surplus (planned v))) as HF.
          rewrite existsb_app in HF.
          assert (existsb (fun t => Nat.eqb (m_id t) (m_id a)) (pl_stale (planned v)) = false) as E0.
          { destruct (existsb _ (pl_stale (planned v))) eqn:X; [|reflexivity]. apply existsb_exists in X. destruct X as (t & Ht & Et).
            apply Nat.eqb_eq in Et. specialize (Hstale t Ht Et). congruence. }
          rewrite E0 in HF. simpl in HF.
          destruct (find _ _) as [t|] eqn:EF.
          - rewrite HF. simpl. apply find_some in EF. destruct EF as (EF1 & EF2). apply Nat.eqb_eq in EF2.
            assert (t = a) as ->.
            { assert (In t (w_machines w)) as Ht.
              { apply in_app_or in EF1. destruct EF1 as [EF1|EF1].
                - exfalso. specialize (Hstale t EF1 EF2). congruence.
                - destruct (plan_surplus (w_spec v) (w_frozen v) (w_cache v) Hsp) as (rest & _ & HP & _). fold (planned v) in HP.
                  assert (In t (filter servingb (w_machines w))) as X by (eapply Permutation_in; [apply Permutation_sym; exact HP|apply in_or_app; left; exact EF1]).
                  apply filter_In in X. tauto. }
              destruct Hwf as (HN & _). clear - HN Ht Hain EF2.
              induction (w_machines w) as [|x l IH]; [destruct Hain|]. simpl in HN. inversion HN as [|? ? N1 N2]; subst.
              destruct Ht as [->|Ht], Hain as [->|Hain]; auto.
              - exfalso. apply N1. rewrite EF2. apply in_map; exact Hain.
              - exfalso. apply N1. rewrite <- EF2. apply in_map; exact Ht. }
            unfold terminate. destruct (m_deleting a) eqn:ED.
            + unfold settled in Hset; rewrite Forall_forall in Hset. specialize (Hset a Hain ED). congruence.
            + unfold servingb. reflexivity.
          - rewrite HF. simpl. exact ESa. }
        rewrite Ea. destruct (servingb a && _); simpl; rewrite IH; auto; intros x Hx; apply Hl; right; exact Hx. }
      apply HH. apply incl_refl.
    - apply Hwf.
    - destruct (plan_surplus (w_spec v) (w_frozen v) (w_cache v) Hsp) as (rest & _ & HP & _). fold (planned v) in HP.
      assert (NoDup (map m_id (filter servingb (w_machines w)))) as HN.
      { destruct Hwf as (HN & _). clear - HN. induction (w_machines w) as [|a l IH]; simpl; [constructor|]. inversion HN; subst.
        destruct (servingb a); simpl; auto. constructor; auto. intro H. apply in_map_iff in H. destruct H as (x & E & Hx). apply filter_In in Hx. apply H1. rewrite <- E. apply in_map. tauto. }
      assert (NoDup (map m_id (pl_surplus (planned v) ++ rest))) as HN2.
      { eapply Permutation_NoDup; [apply Permutation_map; exact HP|exact HN]. }
      rewrite map_app in HN2. clear - HN2. induction (map m_id (pl_surplus (planned v))) as [|x l IH]; [constructor|]. simpl in HN2. inversion HN2; subst.
      constructor; [intro H; apply H1; apply in_or_app; left; exact H|apply IH; assumption].
    - intros t Ht. destruct (plan_surplus (w_spec v) (w_frozen v) (w_cache v) Hsp) as (rest & _ & HP & _). fold (planned v) in HP.
      assert (In t (filter servingb (w_machines w))) as X by (eapply Permutation_in; [apply Permutation_sym; exact HP|apply in_or_app; left; exact Ht]).
      apply filter_In in X. exact X. }
  unfold nserving. rewrite filter_app, app_length. destruct (created_serving now s (w_next v)) as (-> & ->). rewrite EL, Es.
  pose proof (plan_create (w_spec v) (w_frozen v) (w_cache v)) as HPc. fold (planned v) in HPc. rewrite Ec in HPc.
  assert (w_frozen v = false) as Hfv by exact Hfr. rewrite Hfv in HPc. change (w_spec v) with (w_spec w) in *.
  destruct (plan_surplus (w_spec v) (w_frozen v) (w_cache v) Hsp) as (rest & HPs & _). fold (planned v) in HPs. rewrite Ec in HPs. change (w_spec v) with (w_spec w) in *.
  unfold nserving in *. split; intros; lia.
Qed.

Lemma rounds_lemma : forall n now w, wf w -> settled (w_machines w) -> w_frozen w = false -> 0 <= w_spec w ->
  (nserving (w_machines w) <= w_spec w -> nserving (w_machines (rounds n now w)) = Z.min (w_spec w) (nserving (w_machines w) + 100 * Z.of_nat n)) /\
  (w_spec w <= nserving (w_machines w) -> nserving (w_machines (rounds n now w)) = Z.max (w_spec w) (nserving (w_machines w) - 100 * Z.of_nat n)).
Proof.
  induction n as [|n IH]; intros now w H1 H2 H3 H4.
  - cbn [rounds]. split; lia.
  - cbn [rounds]. destruct (one_round now w H1 H2 H3 H4) as (A & B & C & D & E & F).
    set (w' := step (step w OObserve) (OReconcile allok now)) in *.
    destruct (IH now w' A B C ltac:(lia)) as (G & K). rewrite D in *. split; intro HH.
    + specialize (E HH). rewrite G by lia. rewrite E. lia.
    + specialize (F HH). rewrite K by lia. rewrite F. lia.
Qed.

(** A machine that lost its deletion. *)
Lemma lost_not_planned : forall spec fr v t, 0 <= spec -> lost t -> ~ In t (pl_stale (manageReplicas spec fr v)) /\ ~ In t (pl_surplus (manageReplicas spec fr v)).
Proof.
  intros spec fr v t Hs (A & B & C & D). split.
  - intro H. unfold manageReplicas in H. assert (In t (filter isStale v)) as H' by (destruct (_ <? 0); [exact H|destruct (_ >? 0); exact H]).
    apply filter_In in H'. destruct H' as (_ & H'). unfold isStale, IsMachineFailed, IsMachineTriggeredForDeletion in H'. rewrite A in H'.
    apply String.eqb_neq in C, D. rewrite C, D in H'. discriminate.
  - intro H. destruct (plan_surplus spec fr v Hs) as (rest & _ & HP & _).
    assert (In t (filter servingb v)) as X by (eapply Permutation_in; [apply Permutation_sym; exact HP|apply in_or_app; left; exact H]).
    apply filter_In in X. destruct X as (_ & X). apply servingb_iff in X. destruct X as (_ & X & _). contradiction.
Qed.

Lemma plan_in_view : forall spec fr v t, 0 <= spec ->
  In t (pl_stale (manageReplicas spec fr v) ++ pl_surplus (manageReplicas spec fr v)) -> In t v.
Proof.
  intros spec fr v t Hs H. apply in_app_or in H. destruct H as [H|H].
  - unfold manageReplicas in H. assert (In t (filter isStale v)) as H' by (destruct (_ <? 0); [exact H|destruct (_ >? 0); exact H]).
    apply filter_In in H'. tauto.
  - destruct (plan_surplus spec fr v Hs) as (rest & _ & HP & _).
    assert (In t (filter servingb v)) as X by (eapply Permutation_in; [apply Permutation_sym; exact HP|apply in_or_app; left; exact H]).
    apply filter_In in X. tauto.
Qed.

Definition lostinv (id : nat) (w : World) : Prop :=
  (id < w_next w)%nat /\ 0 <= w_spec w /\ In id (map m_id (w_machines w)) /\
  (forall m, In m (w_machines w) -> m_id m = id -> lost m) /\
  (forall m, In m (w_cache w) -> m_id m = id -> lost m).

Lemma lost_step : forall id w o, lostinv id w -> (forall ph, o <> OPhase id ph) -> (forall n, o = OScale n -> 0 <= n) -> lostinv id (step w o).
Proof.
  intros id w o (A & B & C & D & E) Hp Hs. destruct o as [api now| |n|b|i ph|i]; cbn [step].
  - destruct (slowStartBatch (pl_create (planned w)) 1 (a_create api)) as [[c s] e] eqn:EB.
    rewrite (reconcile_eq api now w c s e EB). unfold lostinv. cbn [w_machines w_spec w_next w_cache]. split; [lia|]. split; [exact B|].
    split; [|split].
    + rewrite map_app. apply in_or_app. left. rewrite map_map. erewrite map_ext; [exact C|]. intro; apply targeted_id.
    + intros m Hm Ei. apply in_app_or in Hm. destruct Hm as [Hm|Hm]; [|apply created_id in Hm; lia].
      apply in_map_iff in Hm. destruct Hm as (a & <- & Ha). rewrite targeted_id in Ei. pose proof (D a Ha Ei) as HL.
      unfold targeted. destruct (find _ _) as [t|] eqn:EF; [|exact HL]. exfalso. apply find_some in EF. destruct EF as (F1 & F2). apply Nat.eqb_eq in F2.
      pose proof (plan_in_view _ _ _ _ B F1) as F3. assert (lost t) as HLt by (apply E; [exact F3|lia]).
      destruct (lost_not_planned (w_spec w) (w_frozen w) (w_cache w) t B HLt) as (N1 & N2). apply in_app_or in F1. destruct F1; contradiction.
    + exact E.
  - exact (conj A (conj B (conj C (conj D D)))).
  - exact (conj A (conj (Hs n eq_refl) (conj C (conj D E)))).
  - exact (conj A (conj B (conj C (conj D E)))).
  - assert (i <> id) as Hi by (intro; subst; apply (Hp ph); reflexivity).
    unfold lostinv. cbn [w_machines w_spec w_next w_cache]. split; [exact A|]. split; [exact B|]. split; [|split; [|exact E]].
    + rewrite map_map. erewrite map_ext; [exact C|]. intro a. destruct (Nat.eqb _ _); reflexivity.
    + intros m Hm Ei. apply in_map_iff in Hm. destruct Hm as (a & <- & Ha). destruct (Nat.eqb (m_id a) i) eqn:X.
      * apply Nat.eqb_eq in X. cbn in Ei. lia.
      * apply D; auto.
  - unfold lostinv. cbn [w_machines w_spec w_next w_cache]. split; [exact A|]. split; [exact B|]. split; [|split; [|exact E]].
    + apply in_map_iff in C. destruct C as (a & Ea & Ha). apply in_map_iff. exists a. split; [exact Ea|]. apply filter_In. split; [exact Ha|].
      destruct (D a Ha Ea) as (_ & X & _). rewrite X, andb_false_r. reflexivity.
    + intros m Hm Ei. apply filter_In in Hm. apply D; tauto.
Qed.

Lemma lost_run : forall l id w, lostinv id w -> Forall (fun o => (forall ph, o <> OPhase id ph) /\ (forall n, o = OScale n -> 0 <= n)) l -> lostinv id (run w l).
Proof.
  induction l as [|o l IH]; intros id w H HF; [exact H|]. inversion HF as [|? ? (H1 & H1') H2]; subst. simpl. apply IH; [|exact H2]. apply lost_step; auto.
Qed.

Lemma lost_forever : forall l id w, (forall m, In m (w_machines w) -> m_id m = id -> lost m) -> In id (map m_id (w_machines w)) -> w_cache w = w_machines w ->
  wf w -> 0 <= w_spec w -> Forall (fun o => (forall ph, o <> OPhase id ph) /\ (forall n, o = OScale n -> 0 <= n)) l ->
  exists m, In m (w_machines (run w l)) /\ m_id m = id /\ lost m.
Proof.
  intros l id w HL Hin Ec (HW1 & HW2) Hs HF.
  assert (lostinv id (run w l)) as (A & B & C & D & E).
  { apply lost_run; [|exact HF]. split; [|split; [exact Hs|split; [exact Hin|split; [exact HL|rewrite Ec; exact HL]]]].
    apply in_map_iff in Hin. destruct Hin as (m & <- & Hm). rewrite Forall_forall in HW2. apply HW2; exact Hm. }
  apply in_map_iff in C. destruct C as (m & Em & Hm). exists m. split; [exact Hm|]. split; [exact Em|]. apply D; auto.
Qed.

(** Stale machines are retried. *)
Lemma stale_retried : forall api now w m, wf w -> w_cache w = w_machines w -> In m (w_machines w) -> m_deleting m = false ->
  m_phase m = "Failed" \/ m_prio m = "1" \/ m_trigger m = "true" ->
  exists m', In m' (w_machines (reconcileMachineSet api now w)) /\ m_id m' = m_id m /\ m_deleting m' = a_delete api (m_id m) /\
    m_prio m' = m_prio m /\ m_trigger m' = m_trigger m.
Proof.
  intros api now w m (HW & _) Ec Hm Hd Hst.
  destruct (slowStartBatch (pl_create (planned w)) 1 (a_create api)) as [[c s] e] eqn:EB.
  rewrite (reconcile_eq api now w c s e EB). cbn [w_machines]. exists (targeted api w m). split; [apply in_or_app; left; apply in_map; exact Hm|].
  split; [apply targeted_id|].
  assert (isStale m = true) as HS.
  { unfold isStale, IsMachineFailed, IsMachineTriggeredForDeletion. destruct Hst as [X|[X|X]]; rewrite X; rewrite ?String.eqb_refl; rewrite ?orb_true_r; reflexivity. }
  assert (In m (pl_stale (planned w))) as Hp.
  { unfold planned, manageReplicas. assert (In m (filter isStale (w_cache w))) as X by (apply filter_In; rewrite Ec; auto).
    destruct (_ <? 0); [exact X|destruct (_ >? 0); exact X]. }
  assert (forall a, In a (w_machines w) -> m_id a = m_id m -> a = m) as Hun.
  { clear - HW Hm. intros a Ha Ei. induction (w_machines w) as [|x l IH]; [destruct Hm|]. simpl in HW. inversion HW as [|? ? N1 N2]; subst.
    destruct Ha as [->|Ha], Hm as [->|Hm]; auto.
    - exfalso. apply N1. rewrite Ei. apply in_map; exact Hm.
    - exfalso. apply N1. rewrite <- Ei. apply in_map; exact Ha. }
  unfold targeted.
  assert (existsb (fun t => Nat.eqb (m_id t) (m_id m)) (pl_stale (planned w)) = true) as X.
  { apply existsb_exists. exists m. split; [exact Hp|apply Nat.eqb_refl]. }
  destruct (find _ _) as [t|] eqn:EF.
  2:{ exfalso. assert (In m (pl_stale (planned w) ++ pl_surplus (planned w))) as Y by (apply in_or_app; left; exact Hp). pose proof (find_none _ _ EF m Y) as Z0. simpl in Z0. rewrite Nat.eqb_refl in Z0. discriminate. }
  assert (t = m) as ->.
  { apply find_some in EF. destruct EF as (F1 & F2). apply Nat.eqb_eq in F2. apply Hun; [|exact F2]. rewrite <- Ec.
    apply in_app_or in F1. destruct F1 as [F1|F1].
    - unfold planned, manageReplicas in F1. assert (In t (filter isStale (w_cache w))) as H' by (destruct (_ <? 0); [exact F1|destruct (_ >? 0); exact F1]). apply filter_In in H'. tauto.
    - unfold planned, manageReplicas in F1. destruct (_ <? 0); [destruct F1|]. destruct (_ >? 0); [|destruct F1].
      cbn [pl_surplus] in F1. unfold getMachinesToDelete in F1.
      assert (In t (filter isActive (w_cache w))) as H'.
      { destruct (Nat.ltb _ _).
        - apply (isort_in (fun a b => negb (Less b a))). rewrite <- (firstn_skipn (Z.to_nat (Z.min (Z.of_nat (List.length (filter isActive (w_cache w))) - w_spec w) BurstReplicas))). apply in_or_app. left. exact F1.
        - rewrite <- (firstn_skipn (Z.to_nat (Z.min (Z.of_nat (List.length (filter isActive (w_cache w))) - w_spec w) BurstReplicas))). apply in_or_app. left. exact F1. }
      apply filter_In in H'. tauto. }
  unfold terminate. rewrite Hd. cbn. auto.
Qed.

Lemma one_reconcile : forall spec view, 0 <= spec -> exists rest,
  let p := manageReplicas spec false view in
  Z.of_nat (pl_create p) = Z.max 0 (Z.min (spec - nserving view) 100) /\
  Z.of_nat (List.length (pl_surplus p)) = Z.max 0 (Z.min (nserving view - spec) 100) /\
  Permutation (filter servingb view) (pl_surplus p ++ rest) /\
  (forall x y, In x (pl_surplus p) -> In y rest -> ~ before y x) /\
  (forall m, In m (pl_stale p) <-> In m view /\ (m_phase m = "Failed" \/ m_prio m = "1" \/ m_trigger m = "true")).
Proof.
  intros spec view Hs. destruct (plan_surplus spec false view Hs) as (rest & A & B & C). exists rest. split; [apply plan_create|].
  split; [exact A|]. split; [exact B|]. split; [exact C|]. intro m.
  assert (pl_stale (manageReplicas spec false view) = filter isStale view) as ->.
  { unfold manageReplicas. destruct (_ <? 0); [reflexivity|destruct (_ >? 0); reflexivity]. }
  rewrite filter_In. unfold isStale, IsMachineFailed, IsMachineTriggeredForDeletion. rewrite !orb_true_iff, !String.eqb_eq. tauto.
Qed.

Lemma before_order : (forall a, ~ before a a) /\ (forall a b c, before a b -> before b c -> before a c) /\
  (forall a b c, before a c -> before a b \/ before b c).
Proof. unfold before. repeat split; intros; lia. Qed.

Lemma nsucc_one_bad : forall f n from i, (from <= i < from + n)%nat -> f i = false -> (nsucc f from n < n)%nat.
Proof.
  induction n as [|n IH]; intros from i Hi Hf; [lia|]. unfold nsucc in *. simpl. pose proof (nsucc_le f n (S from)) as HL. unfold nsucc in HL.
  destruct (Nat.eq_dec from i) as [->|Hn]; [rewrite Hf; lia|]. specialize (IH (S from) i ltac:(lia) Hf). destruct (f from); simpl; lia.
Qed.
Lemma nsucc_good : forall f n from, (forall i, (from <= i < from + n)%nat -> f i = true) -> nsucc f from n = n.
Proof.
  induction n as [|n IH]; intros from Hf; [reflexivity|]. unfold nsucc in *. simpl. rewrite Hf by lia. simpl. rewrite IH; [reflexivity|]. intros; apply Hf; lia.
Qed.

Lemma slow_batches_loop : forall k fuel q f done rem i, (rem < fuel)%nat -> (done <= i < done + rem)%nat -> (0 < q)%nat ->
  (forall j, (j < i)%nat -> f j = true) -> f i = false -> (done + q * (2 ^ k - 1) <= i < done + q * (2 ^ (k + 1) - 1))%nat ->
  fst (fst (slowLoop fuel f done rem (Nat.min q rem))) = Nat.min rem (q * (2 ^ (k + 1) - 1)).
Proof.
  induction k as [|k IH]; intros fuel q f done rem i Hf Hi Hq Hg Hb Hr; (destruct fuel as [|fuel]; [lia|]); cbn [slowLoop];
    (destruct (Nat.min q rem) as [|m] eqn:EM; [lia|]); rewrite succeeded_nsucc.
  - simpl in Hr. assert (nsucc f done (S m) < S m)%nat as HL by (apply (nsucc_one_bad f (S m) done i); [lia|exact Hb]).
    apply Nat.ltb_lt in HL. rewrite HL. cbn [fst]. simpl. lia.
  - assert (2 ^ (S k + 1) = 2 * 2 ^ (k + 1))%nat as E1 by (simpl; lia). assert (2 ^ S k = 2 * 2 ^ k)%nat as E2 by (simpl; lia).
    assert (1 <= 2 ^ k)%nat as E3 by (clear; induction k; simpl; lia). assert (1 <= 2 ^ (k + 1))%nat as E4 by (clear; induction k; simpl; lia).
    rewrite E1, E2 in *. assert (S m = q) as EQ by nia. rewrite EQ in *.
    rewrite nsucc_good by (intros j Hj; apply Hg; nia). rewrite Nat.ltb_irrefl.
    specialize (IH fuel (2 * q)%nat f (done + q)%nat (rem - q)%nat i ltac:(lia) ltac:(nia) ltac:(lia) Hg Hb ltac:(nia)).
    destruct (slowLoop fuel f (done + q) (rem - q) (Nat.min (2 * q) (rem - q))) as [[c s] e]. cbn [fst] in *. rewrite IH. nia.
Qed.

Lemma slow_batches : forall n f k i, (i < n)%nat -> (forall j, (j < i)%nat -> f j = true) -> f i = false ->
  (2 ^ k <= i + 1 < 2 ^ (k + 1))%nat -> fst (fst (slowStartBatch n 1 f)) = Nat.min n (2 ^ (k + 1) - 1).
Proof.
  intros n f k i Hi Hg Hb Hk. unfold slowStartBatch. rewrite Nat.min_comm.
  rewrite (slow_batches_loop k (S n) 1 f 0 n i); auto; lia.
Qed.

Lemma lost_deletion : exists w api, wf w /\ w_cache w = w_machines w /\
  nserving (w_machines w) = w_spec w + 1 /\
  let w1 := run w [OReconcile api 0; OObserve] in nserving (w_machines w1) = w_spec w1 /\
  forall l, Forall (fun o => (forall ph, o <> OPhase 0 ph) /\ (forall n, o = OScale n -> 0 <= n)) l ->
    exists m, In m (w_machines (run w1 l)) /\ m_id m = 0%nat /\ m_phase m = "Terminating" /\ m_deleting m = false.
Proof.
  pose (ms_r := fun id => mkMach id "" "" "Running" (Z.of_nat id) false).
  exists (mkW 1 false [ms_r 0%nat; ms_r 1%nat] [ms_r 0%nat; ms_r 1%nat] 2), (mkApi (fun _ => true) (fun _ => false) (fun _ => true)).
  split; [split; repeat constructor; simpl; intuition lia|]. split; [reflexivity|]. split; [reflexivity|].
  set (w1 := run _ _). assert (w1 = mkW 1 false [mkMach 0 "" "" "Terminating" 0 false; ms_r 1%nat] [mkMach 0 "" "" "Terminating" 0 false; ms_r 1%nat] 2) as E by (vm_compute; reflexivity).
  cbv zeta. rewrite E. split; [reflexivity|]. intros l Hl.
  destruct (lost_forever l 0%nat (mkW 1 false [mkMach 0 "" "" "Terminating" 0 false; ms_r 1%nat] [mkMach 0 "" "" "Terminating" 0 false; ms_r 1%nat] 2)) as (m & A & B & C & D & _); auto.
  - intros m [<-|[<-|[]]] Hm; [repeat split; discriminate|discriminate].
  - simpl. auto.
  - split; repeat constructor; simpl; intuition lia.
  - discriminate.
  - exists m. auto.
Qed.

(** Priorities as numbers. *)
Lemma digit_place : forall c, digit c = option_map Z.of_nat (place c decimal_digits).
Proof. intro c. destruct c as [[|] [|] [|] [|] [|] [|] [|] [|]]; vm_compute; reflexivity. Qed.
Lemma digits_written : forall s acc z, digits acc s = Some z <-> exists v, written s v /\ z = acc * 10 ^ Z.of_nat (String.length s) + v.
Proof.
  induction s as [|c s IH]; intros acc z; cbn [digits written String.length].
  - split; [intro H; injection H as <-; exists 0; split; [reflexivity|cbn; lia]|]. intros (v & -> & ->). f_equal. cbn. lia.
  - rewrite digit_place. destruct (place c decimal_digits) as [d|] eqn:E; cbn [option_map].
    + rewrite IH. replace (Z.of_nat (S (String.length s))) with (Z.succ (Z.of_nat (String.length s))) by lia. rewrite Z.pow_succ_r by lia. split.
      * intros (v & H & ->). exists (Z.of_nat d * 10 ^ Z.of_nat (String.length s) + v). split; [exists d, v; auto|]. ring.
      * intros (v & (d' & v' & Ed & H & ->) & ->). injection Ed as <-. exists v'. split; [exact H|]. ring.
    + split; [discriminate|]. intros (v & (d & v' & Ed & _) & _). discriminate.
Qed.
Lemma written_first : forall c r v, written (String c r) v -> c <> "-"%char /\ c <> "+"%char.
Proof. intros c r v (d & v' & E & _). split; intro X; subst c; vm_compute in E; discriminate. Qed.
Lemma atoi_numeral : forall s z, Atoi s = Some z <-> numeral s z.
Proof.
  intros s z. unfold numeral.
  assert (N : forall t w, match t with EmptyString => None | _ => digits 0 t end = Some w <-> t <> "" /\ written t w).
  { intros t w. destruct t as [|c r]; [split; [discriminate|intros (X & _); congruence]|]. rewrite digits_written. split.
    - intros (v & H & ->). split; [discriminate|]. cbn [Z.mul]. exact H.
    - intros (_ & H). exists w. split; [exact H|lia]. }
  assert (R : forall v, (if (-9223372036854775808 <=? v) && (v <=? 9223372036854775807) then Some v else None) = Some z <-> v = z /\ - 2 ^ 63 <= z < 2 ^ 63).
  { intro v. change (2 ^ 63) with 9223372036854775808. destruct (_ && _) eqn:E; split; intro H; try discriminate.
    - injection H as <-. lia.
    - destruct H as (-> & _). reflexivity.
    - destruct H as (-> & H). lia. }
  destruct s as [|c r].
  { split; [discriminate|]. intros (sg & b & v & Hb & _ & E & _). destruct sg; [|discriminate]. cbn in E. congruence. }
  unfold Atoi. destruct (Ascii.eqb c "-"%char) eqn:Em.
  { apply Ascii.eqb_eq in Em. subst c. cbn match.
    split.
    - intro H. destruct (match r with EmptyString => None | _ => digits 0 r end) as [w|] eqn:E; [|discriminate]. cbn [option_map] in H. apply R in H. destruct H as (<- & H).
      apply N in E. destruct E as (E1 & E2). exists "-", r, w. split; [exact E1|]. split; [exact E2|]. split; [reflexivity|]. split; [right; right; auto|exact H].
    - intros (sg & b & v & Hb & Hw & E & Hs & Hr). destruct Hs as [(-> & ->)|[(-> & ->)|(-> & ->)]]; cbn in E.
      + subst b. apply written_first in Hw. tauto.
      + discriminate.
      + injection E as ->. assert (X : match b with EmptyString => None | _ => digits 0 b end = Some v) by (apply N; auto). rewrite X. cbn [option_map]. apply R. auto. }
  destruct (Ascii.eqb c "+"%char) eqn:Ep.
  { apply Ascii.eqb_eq in Ep. subst c. cbn match.
    split.
    - intro H. destruct (match r with EmptyString => None | _ => digits 0 r end) as [w|] eqn:E; [|discriminate]. apply R in H. destruct H as (<- & H).
      apply N in E. destruct E as (E1 & E2). exists "+", r, w. split; [exact E1|]. split; [exact E2|]. split; [reflexivity|]. split; [right; left; auto|exact H].
    - intros (sg & b & v & Hb & Hw & E & Hs & Hr). destruct Hs as [(-> & ->)|[(-> & ->)|(-> & ->)]]; cbn in E.
      + subst b. apply written_first in Hw. tauto.
      + injection E as ->. assert (X : match b with EmptyString => None | _ => digits 0 b end = Some v) by (apply N; auto). rewrite X. apply R. auto.
      + discriminate. }
  apply Ascii.eqb_neq in Em, Ep.
  assert (EV : (match String c r with
           | String "-" r => option_map Z.opp match r with EmptyString => None | _ => digits 0 r end
           | String "+" r => match r with EmptyString => None | _ => digits 0 r end
           | _ => match String c r with EmptyString => None | _ => digits 0 (String c r) end
           end) = digits 0 (String c r)).
  { destruct c as [[|] [|] [|] [|] [|] [|] [|] [|]]; try reflexivity; exfalso; [apply Ep|apply Em]; reflexivity. }
  cbn zeta. rewrite EV. split.
  - intro H. destruct (digits 0 (String c r)) as [w|] eqn:E; [|discriminate]. apply R in H. destruct H as (<- & H).
    assert (X : String c r <> "" /\ written (String c r) w) by (apply N; exact E). exists "", (String c r), w. destruct X as (X1 & X2).
    split; [exact X1|]. split; [exact X2|]. split; [reflexivity|]. split; [left; auto|exact H].
  - intros (sg & b & v & Hb & Hw & E & Hs & Hr). destruct Hs as [(-> & ->)|[(-> & ->)|(-> & ->)]]; cbn in E.
    + subst b. assert (X : digits 0 (String c r) = Some v) by (apply (N (String c r)); auto). rewrite X. apply R. auto.
    + injection E as -> _. congruence.
    + injection E as -> _. congruence.
Qed.

Lemma priority_number : forall m, (forall z, numeral (m_prio m) z -> machinePriority m = z) /\
  ((forall z, ~ numeral (m_prio m) z) -> machinePriority m = 3).
Proof.
  intro m. unfold machinePriority. split.
  - intros z H. pose proof (proj2 (atoi_numeral _ _) H) as A. destruct (m_prio m); [discriminate|]. rewrite A. reflexivity.
  - intro H. destruct (m_prio m) as [|c r] eqn:E; [reflexivity|]. destruct (Atoi (String c r)) as [z|] eqn:A; [|reflexivity].
    exfalso. apply (H z). apply atoi_numeral. exact A.
Qed.
