Require Import Coq.ZArith.ZArith Coq.Lists.List Coq.Strings.String Coq.Bool.Bool Coq.micromega.Lia.
Require Import Coq.Sorting.Permutation.
From Verif Require Import Types Sort RolloutModel RolloutSpec RolloutProofs ScaleModel ScaleSpec ScaleProofs RecreateModel RecreateSpec.
Import ListNotations.
Open Scope Z_scope.
Require Import Coq.micromega.ZifyBool.

(** Function level. *)
Lemma recreate_up_safe : forall complete d newIS olds mm calls c,
  Forall (fun s => 0 <= ms_spec s /\ 0 <= ms_status s) olds ->
  rolloutRecreate complete d newIS olds mm = Some calls -> In c calls ->
  (exists n, c = CreateSet n) \/ (exists s n, newIS = Some s /\ c = Resize s n) ->
  (forall s, newIS = Some s -> ~ In s olds) ->
  Forall (fun s => ms_spec s = 0 /\ ms_status s = 0) olds /\
  Forall (fun p => (exists n, newIS = Some n /\ ms_name n = fst p) \/ snd p <= 0) mm.
Proof.
  intros complete d newIS olds mm calls c Hnn H Hc Hup Hnot. unfold rolloutRecreate in H.
  destruct (FilterActiveMachineSets olds) as [|a act] eqn:EA.
  - destruct (oldMachinesRunning newIS olds mm) eqn:ER; [injection H as <-; destruct Hc|].
    unfold oldMachinesRunning in ER. apply orb_false_iff in ER. destruct ER as (E1 & E2).
    rewrite count_actual in E1. split.
    + rewrite active_filter in EA.
      assert (forall s, In s olds -> ms_spec s = 0) as HZ.
      { intros s Hs. rewrite Forall_forall in Hnn. specialize (Hnn _ Hs).
        destruct (0 <? ms_spec s) eqn:E; [|lia].
        assert (In s (filter (fun s => 0 <? ms_spec s) olds)) as Hf by (apply filter_In; auto).
        rewrite EA in Hf; destruct Hf. }
      clear - Hnn E1 HZ. assert (sum ms_status olds <= 0) as E by lia. clear E1.
      induction olds as [|s olds IH]; [constructor|].
      inversion Hnn as [|? ? H1 H2]; subst.
      assert (0 <= sum ms_status olds). { apply sum_nonneg. eapply Forall_impl; [|exact H2]. cbv beta; tauto. }
      unfold sum in *; simpl in E. constructor.
      * split; [apply HZ; left; reflexivity|lia].
      * apply IH; auto. intros; apply HZ; right; assumption. simpl in *; lia.
    + rewrite Forall_forall. intros p Hp. destruct (0 <? snd p) eqn:E; [|right; lia]. left.
      destruct newIS as [n|].
      * exists n. split; [reflexivity|]. destruct (String.eqb (ms_name n) (fst p)) eqn:EN; [apply String.eqb_eq; exact EN|].
        exfalso. assert (existsb (fun p => negb (String.eqb (ms_name n) (fst p)) && (0 <? snd p)) mm = true) as HH.
        { apply existsb_exists. exists p. rewrite EN, E. auto. }
        congruence.
      * exfalso. assert (existsb (fun p : string * Z => 0 <? snd p) mm = true) as HH.
        { apply existsb_exists. exists p. auto. }
        congruence.
  - exfalso. injection H as <-. change (In c (map (fun s => Resize s 0) (a :: act))) in Hc.
    apply in_map_iff in Hc. destruct Hc as (x & <- & Hx).
    destruct Hup as [(n & Hn)|(s & n & Hs & Hn)]; [discriminate|]. injection Hn as -> _.
    apply (Hnot s Hs). rewrite <- EA, active_filter in Hx. apply filter_In in Hx. tauto.
Qed.

(** Run level. *)
Definition inv (w : World) : Prop :=
  NoDup (map r_name (w_sets w)) /\
  NoDup (map r_template (w_sets w)) /\
  0 <= w_replicas w /\
  Forall (fun x => 0 <= ms_spec (r_ms x) /\ 0 <= r_machines x) (w_sets w) /\
  (forall x y, In x (w_sets w) -> In y (w_sets w) -> r_name x <> r_name y ->
     r_template x = w_template w -> idle y) /\
  (forall x y, In x (w_sets w) -> In y (w_sets w) -> r_name x <> r_name y -> idle x \/ idle y).

Lemma inv_fresh : forall w, fresh_world w -> inv w.
Proof.
  intros w (H & H1). unfold inv. rewrite H. simpl.
  split; [constructor|]. split; [constructor|]. split; [exact H1|]. split; [constructor|].
  split; intros ? ? [].
Qed.

Lemma key_inj : forall A B (f : A -> B) l x y, NoDup (map f l) -> In x l -> In y l -> f x = f y -> x = y.
Proof.
  intros A B f l x y. induction l as [|a l IH]; intros HN Hx Hy E; [destruct Hx|].
  inversion HN as [|? ? H1 H2]; subst. destruct Hx as [->|Hx], Hy as [->|Hy]; auto.
  - exfalso. apply H1. rewrite E. apply in_map; exact Hy.
  - exfalso. apply H1. rewrite <- E. apply in_map; exact Hx.
Qed.

Lemma inv_map : forall w f R,
  0 <= R ->
  (forall x, In x (w_sets w) -> r_name (f x) = r_name x /\ r_template (f x) = r_template x /\
      0 <= ms_spec (r_ms (f x)) /\ 0 <= r_machines (f x)) ->
  (forall x, In x (w_sets w) -> idle x ->
      idle (f x) \/ (r_template x = w_template w /\ forall y, In y (w_sets w) -> r_name y <> r_name x -> idle (f y))) ->
  inv w -> inv (mkWorld (w_template w) R (w_limit w) (map f (w_sets w))).
Proof.
  intros w f R HR Hf Hid (N & T & _ & P & A & B). unfold inv; cbn [w_sets w_replicas w_template].
  assert (map r_name (map f (w_sets w)) = map r_name (w_sets w)) as EN.
  { rewrite map_map. apply map_ext_in. intros x Hx. apply (Hf x Hx). }
  assert (map r_template (map f (w_sets w)) = map r_template (w_sets w)) as ET.
  { rewrite map_map. apply map_ext_in. intros x Hx. apply (Hf x Hx). }
  split; [rewrite EN; exact N|]. split; [rewrite ET; exact T|]. split; [exact HR|]. split.
  { rewrite Forall_forall. intros x Hx. apply in_map_iff in Hx. destruct Hx as (y & <- & Hy). destruct (Hf y Hy); tauto. }
  split.
  - intros x y Hx Hy Hne Ht. apply in_map_iff in Hx, Hy. destruct Hx as (x0 & <- & Hx), Hy as (y0 & <- & Hy).
    destruct (Hf x0 Hx) as (E1 & E2 & _), (Hf y0 Hy) as (E3 & E4 & _). rewrite E1, E3, E2 in *.
    pose proof (A x0 y0 Hx Hy Hne Ht) as HI. destruct (Hid y0 Hy HI) as [H|(H1 & H2)]; [exact H|].
    exfalso. apply Hne. f_equal. eapply (key_inj _ _ r_template); eauto. congruence.
  - intros x y Hx Hy Hne. apply in_map_iff in Hx, Hy. destruct Hx as (x0 & <- & Hx), Hy as (y0 & <- & Hy).
    destruct (Hf x0 Hx) as (E1 & E2 & _), (Hf y0 Hy) as (E3 & E4 & _). rewrite E1, E3 in *.
    destruct (B x0 y0 Hx Hy Hne) as [HI|HI].
    + destruct (Hid x0 Hx HI) as [H|(H1 & H2)]; [left; exact H|]. right. apply H2; auto.
    + destruct (Hid y0 Hy HI) as [H|(H1 & H2)]; [right; exact H|]. left. apply H2; auto.
Qed.

Lemma map_NoDup_filter : forall A B (f : A -> B) (g : A -> bool) l, NoDup (map f l) -> NoDup (map f (filter g l)).
Proof.
  intros A B f g l. induction l as [|a l IH]; simpl; intro H; [constructor|].
  inversion H as [|? ? H1 H2]; subst. destruct (g a); simpl; auto. constructor; auto.
  intro HI. apply H1. apply in_map_iff in HI. destruct HI as (x & E & Hx). apply filter_In in Hx.
  apply in_map_iff. exists x; tauto.
Qed.

Lemma inv_delete : forall w g, inv w -> inv (mkWorld (w_template w) (w_replicas w) (w_limit w) (filter g (w_sets w))).
Proof.
  intros w g (N & T & R & P & A & B). unfold inv; cbn [w_sets w_replicas w_template].
  split; [apply map_NoDup_filter; exact N|]. split; [apply map_NoDup_filter; exact T|]. split; [exact R|].
  split. { rewrite Forall_forall in *. intros x Hx. apply filter_In in Hx. apply P; tauto. }
  split; intros x y Hx Hy; apply filter_In in Hx, Hy; [apply A|apply B]; tauto.
Qed.

Lemma idle_dec : forall x, 0 <= r_machines x -> idle x \/ ~ idle x.
Proof. intros x _. unfold idle. destruct (Z.eq_dec (ms_spec (r_ms x)) 0), (Z.eq_dec (r_machines x) 0); tauto. Qed.

Definition down_call (c : Call) : Prop :=
  match c with Resize _ n => n = 0 | Delete _ => True | CreateSet _ => False end.

Lemma inv_down_call : forall name now w c, down_call c -> inv w -> inv (applyCall name now w c).
Proof.
  intros name now w c Hc Hi. destruct c as [s n|s|n]; cbn [applyCall down_call] in *; [subst n| |destruct Hc].
  - apply inv_map; auto.
    + apply Hi.
    + intros x Hx. destruct Hi as (_ & _ & _ & P & _). rewrite Forall_forall in P. specialize (P x Hx).
      unfold r_name. destruct (String.eqb _ _); cbn; repeat split; try lia; tauto.
    + intros x Hx H. left. unfold idle in *. destruct (String.eqb _ _); cbn; tauto.
  - apply inv_delete; exact Hi.
Qed.

Lemma inv_down_calls : forall name now l w, Forall down_call l -> inv w -> inv (fold_left (applyCall name now) l w).
Proof.
  intros name now l. induction l as [|c l IH]; intros w Hl Hi; cbn [fold_left]; [exact Hi|].
  inversion Hl; subst. apply IH; auto. apply inv_down_call; auto.
Qed.

Lemma inv_resize_new : forall name now w z R, inv w -> 0 <= R -> In z (w_sets w) -> r_template z = w_template w ->
  inv (applyCall name now w (Resize (r_ms z) R)).
Proof.
  intros name now w z R Hi HR Hz Ht. cbn [applyCall]. apply inv_map; auto.
  - apply Hi.
  - intros x Hx. destruct Hi as (_ & _ & _ & P & _). rewrite Forall_forall in P. specialize (P x Hx).
    unfold r_name. destruct (String.eqb _ _); cbn; repeat split; try lia; tauto.
  - intros x Hx HI. fold (r_name z). destruct (String.eqb (r_name x) (r_name z)) eqn:E; [|left; exact HI].
    apply String.eqb_eq in E. right. destruct Hi as (N & T & _ & P & A & _).
    assert (x = z) as -> by (eapply (key_inj _ _ r_name); eauto). split; [exact Ht|].
    intros y Hy Hne. destruct (String.eqb (r_name y) (r_name z)) eqn:E2; [apply String.eqb_eq in E2; tauto|].
    apply (A z y Hz Hy); auto.
Qed.

Lemma inv_create : forall name now w n, inv w -> 0 <= n ->
  ~ In (w_template w) (map r_template (w_sets w)) ->
  (forall x, In x (w_sets w) -> idle x) -> inv (applyCall name now w (CreateSet n)).
Proof.
  intros name now w n (N & T & R & P & A & B) Hn Hnt Hid. cbn [applyCall].
  destruct (existsb _ _) eqn:E; [unfold inv; tauto|].
  assert (~ In name (map r_name (w_sets w))) as HN.
  { intro H. apply in_map_iff in H. destruct H as (x & H1 & H2).
    assert (existsb (fun x => String.eqb (r_name x) name) (w_sets w) = true) by (apply existsb_exists; exists x; rewrite H1, String.eqb_refl; auto).
    congruence. }
  unfold inv; cbn [w_sets w_replicas w_template]. rewrite !map_app. cbn [map].
  split. { eapply Permutation_NoDup; [apply Permutation_app_comm|]. simpl. constructor; assumption. }
  split. { eapply Permutation_NoDup; [apply Permutation_app_comm|]. simpl. constructor; assumption. }
  split; [exact R|]. split. { apply Forall_app; split; [exact P|]. constructor; [cbn; lia|constructor]. }
  split.
  - intros x y Hx Hy Hne Ht. apply in_app_or in Hx, Hy. destruct Hy as [Hy|[<-|[]]]; [auto|].
    destruct Hx as [Hx|[<-|[]]]; [|tauto].
    exfalso. apply Hnt. apply in_map_iff. exists x; auto.
  - intros x y Hx Hy Hne. apply in_app_or in Hx, Hy.
    destruct Hx as [Hx|[<-|[]]]; [left; auto|]. destruct Hy as [Hy|[<-|[]]]; [right; auto|tauto].
Qed.

Lemma findNew_some : forall w z, findNew w = Some z -> In z (w_sets w) /\ r_template z = w_template w.
Proof.
  intros w z H. unfold findNew in H. apply find_some in H. destruct H as (H1 & H2).
  split; [eapply Permutation_in; [apply Permutation_sym, isort_perm|exact H1]|apply Nat.eqb_eq; exact H2].
Qed.

Lemma findNew_none : forall w, findNew w = None -> ~ In (w_template w) (map r_template (w_sets w)).
Proof.
  intros w H HI. apply in_map_iff in HI. destruct HI as (x & E & Hx).
  unfold findNew in H. eapply find_none in H; [|eapply Permutation_in; [apply isort_perm|exact Hx]].
  cbv beta in H. rewrite E, Nat.eqb_refl in H. discriminate.
Qed.

Lemma active_all_zero : forall l, (forall s, In s l -> ms_spec s = 0) -> FilterActiveMachineSets l = [].
Proof.
  intros l H. rewrite active_filter. induction l as [|a l IH]; [reflexivity|]. simpl.
  rewrite (H a (or_introl eq_refl)). simpl. apply IH. intros; apply H; right; assumption.
Qed.

Lemma firstn_Forall : forall A (P : A -> Prop) n l, Forall P l -> Forall P (firstn n l).
Proof. intros A P n. induction n; intros l H; [constructor|]. destruct l; [constructor|]. inversion H; subst. simpl; constructor; auto. Qed.

Lemma olds_of_new : forall w z s, inv w -> findNew w = Some z -> In s (findOlds w) -> ms_spec s = 0.
Proof.
  intros w z s (N & T & R & P & A & B) HF H. unfold findOlds in H. rewrite HF in H.
  apply in_map_iff in H. destruct H as (x & <- & Hx). apply filter_In in Hx. destruct Hx as (Hx & Hne).
  destruct (findNew_some _ _ HF) as (Hz & Ht).
  apply negb_true_iff, String.eqb_neq in Hne.
  destruct (A z x Hz Hx (fun e => Hne (eq_sym e)) Ht); assumption.
Qed.

Lemma inv_reconcile : forall w complete name now writes, inv w -> inv (step w (Reconcile complete name now writes)).
Proof.
  intros w complete name now writes Hi. cbn [step].
  set (mm := map _ (w_sets w)). unfold reconcileRecreate.
  destruct (findNew w) as [z|] eqn:HF; cbn [option_map].
  - destruct (findNew_some _ _ HF) as (Hz & Ht).
    assert (FilterActiveMachineSets (findOlds w) = []) as EO.
    { apply active_all_zero. intros s Hs. eapply olds_of_new; eauto. }
    assert (0 <= w_replicas w) as HR by apply Hi.
    destruct (isScalingEvent _ _ _).
    + assert (scale (w_md w) (Some (r_ms z)) (findOlds w) = Some [(r_ms z, w_replicas w)]) as ->.
      { destruct (active_sets (Some (r_ms z)) (findOlds w)) as [|a r] eqn:EA.
        - apply (none_active_new (w_md w)); exact EA.
        - assert (active_sets (Some (r_ms z)) (findOlds w) = filter (fun s => 0 <? ms_spec s) [r_ms z]) as E1.
          { unfold active_sets, all_sets. rewrite filter_app, <- active_filter, EO. reflexivity. }
          rewrite EA in E1. simpl in E1. destruct (0 <? ms_spec (r_ms z)); [|discriminate].
          injection E1 as -> ->. apply (one_active (w_md w)); exact EA. }
      cbn [option_map map]. destruct writes as [|k]; cbn [firstn fold_left]; [exact Hi|].
      rewrite firstn_nil; cbn [fold_left fst snd]. apply inv_resize_new; auto.
    + unfold rolloutRecreate. rewrite EO. destruct (oldMachinesRunning _ _ _); [rewrite firstn_nil; exact Hi|].
      assert (forall dels, inv (fold_left (applyCall name now) (firstn writes (Resize (r_ms z) (md_replicas (w_md w)) :: map Delete dels)) w)) as HD.
      { intro dels. destruct writes as [|k]; cbn [firstn fold_left]; [exact Hi|].
        apply inv_down_calls; [|apply inv_resize_new; auto].
        apply firstn_Forall. rewrite Forall_forall. intros c Hc. apply in_map_iff in Hc. destruct Hc as (? & <- & _). exact I. }
      assert (forall dels, inv (fold_left (applyCall name now) (firstn writes (map Delete dels)) w)) as HE.
      { intro dels. apply inv_down_calls; [|exact Hi].
        apply firstn_Forall. rewrite Forall_forall. intros c Hc. apply in_map_iff in Hc. destruct Hc as (? & <- & _). exact I. }
      destruct complete.
      * destruct (cleanupMachineDeployment _ _) as [dels|]; [|exact Hi].
        destruct (ms_spec (r_ms z) =? md_replicas (w_md w)); [apply HE|apply HD].
      * destruct (ms_spec (r_ms z) =? md_replicas (w_md w)); [apply (HE [])|apply (HD [])].
  - cbn [isScalingEvent]. unfold rolloutRecreate.
    assert (findOlds w = map r_ms (w_sets w)) as EO by (unfold findOlds; rewrite HF; reflexivity).
    destruct (FilterActiveMachineSets (findOlds w)) as [|a act] eqn:EA.
    + destruct (oldMachinesRunning None (findOlds w) mm) eqn:ER; [rewrite firstn_nil; exact Hi|].
      unfold oldMachinesRunning in ER. apply orb_false_iff in ER. destruct ER as (_ & E2).
      assert (forall x, In x (w_sets w) -> idle x) as Hid.
      { intros x Hx. destruct Hi as (_ & _ & _ & P & _). rewrite Forall_forall in P. specialize (P x Hx). split.
        - destruct (0 <? ms_spec (r_ms x)) eqn:E; [|lia].
          assert (In (r_ms x) (FilterActiveMachineSets (findOlds w))) as HI.
          { rewrite active_filter, EO. apply filter_In. split; [apply in_map; exact Hx|exact E]. }
          rewrite EA in HI; destruct HI.
        - destruct (0 <? r_machines x) eqn:E; [|lia].
          assert (existsb (fun p : string * Z => 0 <? snd p) mm = true) as HH.
          { apply existsb_exists. exists (r_name x, r_machines x). split; [|exact E].
            unfold mm. apply in_map_iff. exists x; auto. }
          congruence. }
      assert (0 <= md_replicas (w_md w)) as HR by apply Hi.
      pose proof (findNew_none _ HF) as HNT.
      assert (forall dels, inv (fold_left (applyCall name now) (firstn writes (CreateSet (md_replicas (w_md w)) :: map Delete dels)) w)) as HD.
      { intro dels. destruct writes as [|k]; cbn [firstn fold_left]; [exact Hi|].
        apply inv_down_calls; [|apply inv_create; auto].
        apply firstn_Forall. rewrite Forall_forall. intros c Hc. apply in_map_iff in Hc. destruct Hc as (? & <- & _). exact I. }
      destruct complete; [|apply (HD [])].
      destruct (cleanupMachineDeployment _ _) as [dels|]; [apply HD|exact Hi].
    + apply inv_down_calls; [|exact Hi]. apply firstn_Forall.
      rewrite Forall_forall. intros c Hc. apply in_map_iff in Hc. destruct Hc as (? & <- & _). reflexivity.
Qed.

Lemma inv_onSet : forall w name f, inv w ->
  (forall x, r_name (f x) = r_name x /\ r_template (f x) = r_template x /\ ms_spec (r_ms (f x)) = ms_spec (r_ms x) /\
     (0 <= ms_spec (r_ms x) -> 0 <= r_machines x -> 0 <= r_machines (f x)) /\ (idle x -> idle (f x))) ->
  inv (onSet name f w).
Proof.
  intros w name f Hi Hf. unfold onSet. apply inv_map; auto.
  - apply Hi.
  - intros x Hx. destruct Hi as (_ & _ & _ & P & _). rewrite Forall_forall in P. specialize (P x Hx).
    destruct (Hf x) as (A & B & C & D & _). destruct (String.eqb _ _); repeat split; try tauto; try lia.
  - intros x Hx H. left. destruct (Hf x) as (_ & _ & _ & _ & D). destruct (String.eqb _ _); auto.
Qed.

Lemma inv_step : forall w e, inv w ->
  match e with SetTemplate t => ~ In t (map r_template (w_sets w)) | _ => True end -> inv (step w e).
Proof.
  intros w e Hi He. destruct e as [c name now k|name|name|name g og st av|t|n].
  - apply inv_reconcile; exact Hi.
  - cbn [step]. apply inv_onSet; [exact Hi|]. intro x. unfold idle. destruct (r_machines x <? ms_spec (r_ms x)) eqn:E; cbn; repeat split; try tauto; lia.
  - cbn [step]. apply inv_onSet; [exact Hi|]. intro x. unfold idle. destruct (0 <? r_machines x) eqn:E; cbn; repeat split; try tauto; lia.
  - cbn [step]. apply inv_onSet; [exact Hi|]. intro x. unfold idle. cbn. repeat split; tauto.
  - cbn [step]. destruct Hi as (N & T & R & P & A & B). unfold inv; cbn [w_sets w_replicas w_template].
    repeat (split; [assumption|]). split; [|exact B].
    intros x y Hx Hy Hne Ht. exfalso. apply He. apply in_map_iff. exists x; auto.
  - cbn [step]. destruct (0 <=? n) eqn:E; [|exact Hi].
    destruct Hi as (N & T & R & P & A & B). unfold inv; cbn [w_sets w_replicas w_template].
    split; [exact N|]. split; [exact T|]. split; [lia|]. split; [exact P|]. split; [exact A|exact B].
Qed.

Lemma inv_run : forall l w, inv w -> new_templates_only w l -> inv (run w l).
Proof.
  induction l as [|e l IH]; intros w Hi Hn; [exact Hi|]. destruct Hn as (H1 & H2).
  cbn [run fold_left]. apply IH; [apply inv_step; assumption|exact H2].
Qed.

Lemma c08_lemma : forall w l, fresh_world w -> new_templates_only w l ->
  let w' := run w l in
  forall x y, In x (w_sets w') -> In y (w_sets w') -> r_name x <> r_name y ->
    (idle x \/ idle y) /\ (r_template x = w_template w' -> idle y).
Proof.
  intros w l Hw Hn w' x y Hx Hy Hne. destruct (inv_run l w (inv_fresh w Hw) Hn) as (_ & _ & _ & _ & A & B). split.
  - apply B; auto.
  - intro HT. exact (A x y Hx Hy Hne HT).
Qed.

(** *** C51 *)
Lemma prop_length : forall d t l a sizes b, scaleMachineSetsProportionally d t a l = Some (sizes, b) -> List.length sizes = List.length l.
Proof.
  intros d t l. induction l as [|s l IH]; intros a sizes b H; cbn [scaleMachineSetsProportionally] in H.
  - injection H as <- <-. reflexivity.
  - destruct (if t =? 0 then Some 0 else GetProportion d s t a) as [p|]; [|discriminate].
    destruct (scaleMachineSetsProportionally d t (a + p) l) as [[sz b']|] eqn:E; [|discriminate].
    injection H as <- <-. simpl. f_equal. eapply IH; exact E.
Qed.

Lemma map_fst_combine : forall A B (l : list A) (m : list B), List.length m = List.length l -> map fst (combine l m) = l.
Proof. induction l; intros [|y m] H; simpl in *; try discriminate; [reflexivity|]. f_equal. apply IHl. congruence. Qed.

Lemma addLeftover_length : forall t a l, List.length (addLeftover t a l) = List.length l.
Proof. intros. destruct l; reflexivity. Qed.

Lemma scale_covers : forall d newIS olds plan,
  (exists s u, md_strategy d = RollingUpdate s u) \/ (List.length (active_sets newIS olds) <= 1)%nat \/ saturated d newIS ->
  scale d newIS olds = Some plan ->
  (exists s, plan = [(s, md_replicas d)] /\ In s (all_sets newIS olds) /\ forall x, In x (active_sets newIS olds) -> x = s) \/
  (saturated d newIS /\ Permutation plan (map (fun s => (s, 0)) (active_sets None olds))) \/
  (2 <= List.length (active_sets newIS olds))%nat /\ Permutation (map fst plan) (active_sets newIS olds) \/ 
  all_sets newIS olds = [].
Proof.
  intros d newIS olds plan HS H.
  pose proof (active_perm newIS olds) as HP.
  destruct (Nat.le_gt_cases 2 (List.length (active_sets newIS olds))) as [L|L].
  - assert (IsSaturated d newIS = true -> saturated d newIS) as Hsat.
    { unfold IsSaturated. destruct newIS as [n|]; [|discriminate]. destruct (ms_desired n) eqn:ED; try discriminate.
      intro E. exists n. repeat split; [lia|lia|]. rewrite ED. f_equal. lia. }
    destruct (IsSaturated d newIS) eqn:ES.
    + right; left. split; [auto|]. destruct (saturated_lemma d newIS olds L (Hsat eq_refl)) as (pl & E1 & E2). congruence.
    + right; right; left. split; [exact L|].
      assert (~ saturated d newIS) as HNS.
      { intros (n & -> & A & B & C). unfold IsSaturated in ES. rewrite C in ES. lia. }
      assert (exists s u, md_strategy d = RollingUpdate s u) as (s & u & Hd).
      { destruct HS as [HS|[HS|HS]]; [exact HS|lia|tauto]. }
      unfold scale in H. cbv zeta in H.
      set (olds' := isort (fun a b => byCreation b a) olds) in *.
      assert (FindActiveOrLatest newIS olds' = None) as EF.
      { unfold FindActiveOrLatest. pose proof (Permutation_length HP) as HL.
        destruct (FilterActiveMachineSets (allSets newIS olds')) as [|x [|y r]]; simpl in HL; try lia. reflexivity. }
      rewrite EF, ES, Hd in H.
      set (all := FilterActiveMachineSets (allSets newIS olds')) in *.
      destruct (0 <=? _).
      * injection H as <-. rewrite map_fst_combine; [exact HP|].
        rewrite addLeftover_length. unfold scaleNewMachineSet. apply map_length.
      * destruct (scaleMachineSetsProportionally d _ 0 _) as [[sz b]|] eqn:EP; [|discriminate].
        injection H as <-. rewrite map_fst_combine; [|rewrite addLeftover_length; eapply prop_length; exact EP].
        eapply perm_trans; [apply Permutation_sym, isort_perm|exact HP].
  - destruct (active_sets newIS olds) as [|x [|y r]] eqn:EA; [| |simpl in L; lia].
    + apply Permutation_sym, Permutation_nil in HP.
      unfold scale in H. cbv zeta in H. unfold FindActiveOrLatest in H. rewrite HP in H.
      destruct newIS as [n|].
      * injection H as <-. left. exists n. split; [reflexivity|]. split; [|intros ? []]. unfold all_sets. apply in_or_app; right; left; reflexivity.
      * destruct (hd_error (isort (fun a b => byCreation b a) olds)) as [m|] eqn:EH.
        -- injection H as <-. left. exists m. split; [reflexivity|]. split; [|intros ? []].
           unfold all_sets. apply in_or_app; left. eapply Permutation_in; [apply Permutation_sym, (isort_perm (fun a b => byCreation b a))|].
           destruct (isort _ olds); [discriminate|]. injection EH as <-. left; reflexivity.
        -- right; right; right. unfold all_sets. rewrite app_nil_r.
           destruct (isort (fun a b => byCreation b a) olds) as [|q r] eqn:EI; [|discriminate].
           pose proof (isort_perm (fun a b => byCreation b a) olds) as HQ. rewrite EI in HQ.
           apply Permutation_sym, Permutation_nil in HQ. exact HQ.
    + rewrite (one_active d newIS olds x EA) in H. injection H as <-. left. exists x. split; [reflexivity|]. split.
      * assert (In x (active_sets newIS olds)) as HI by (rewrite EA; left; reflexivity).
        unfold active_sets in HI. apply filter_In in HI. tauto.
      * intros y [->|[]]. reflexivity.
Qed.

Lemma find_some_in : forall (plan : list (MachineSet * Z)) s, In (ms_name s) (map (fun p => ms_name (fst p)) plan) ->
  exists p, find (fun p => String.eqb (ms_name (fst p)) (ms_name s)) plan = Some p.
Proof.
  induction plan as [|p plan IH]; intros s H; [destruct H|]. simpl in *.
  destruct (String.eqb (ms_name (fst p)) (ms_name s)) eqn:E; [eauto|]. apply IH.
  destruct H as [H|H]; [apply String.eqb_neq in E; congruence|exact H].
Qed.

Lemma c51_lemma : forall d newIS olds maxr plan,
  NoDup (map ms_name (all_sets newIS olds)) -> all_sets newIS olds <> [] ->
  (exists s u, md_strategy d = RollingUpdate s u) \/ (List.length (active_sets newIS olds) <= 1)%nat \/ saturated d newIS ->
  scale d newIS olds = Some plan ->
  (forall s, In s (map (after_plan d maxr plan) (all_sets newIS olds)) -> 0 < ms_spec s -> ms_desired s = AnnInt (md_replicas d)).
Proof.
  intros d newIS olds maxr plan HN Hne HS H s Hs Hpos.
  apply in_map_iff in Hs. destruct Hs as (x & <- & Hx). unfold after_plan in *.
  assert (forall y, In y (all_sets newIS olds) -> ms_name y = ms_name x -> y = x) as HU.
  { intros y Hy E. eapply (key_inj _ _ ms_name); eauto. }
  destruct (find _ plan) as [p|] eqn:EF; [reflexivity|].
  assert (In x (active_sets newIS olds)) as HA. { unfold active_sets. apply filter_In. split; [exact Hx|lia]. }
  assert (~ In (ms_name x) (map (fun p => ms_name (fst p)) plan)) as HNI.
  { intro HI. destruct (find_some_in _ _ HI) as (p & E). congruence. }
  destruct (scale_covers _ _ _ _ HS H) as [(m & -> & Hm & Hu)|[(Hsat & HP)|[(_ & HP)|HP]]].
  - exfalso. apply HNI. simpl. left. f_equal. symmetry. apply Hu; exact HA.
  - destruct Hsat as (n & -> & A & B & C).
    assert (x = n) as ->; [|exact C].
    unfold all_sets in Hx. apply in_app_or in Hx. destruct Hx as [Hx|[Hx|[]]]; [|auto].
    exfalso. apply HNI. change (In (ms_name x) (map (fun p => ms_name (fst p)) plan)).
    apply in_map_iff. exists (x, 0). split; [reflexivity|].
    eapply Permutation_in; [apply Permutation_sym; exact HP|]. apply in_map_iff. exists x. split; [reflexivity|].
    unfold active_sets, all_sets. rewrite app_nil_r. apply filter_In. split; [exact Hx|lia].
  - exfalso. apply HNI. rewrite <- map_map. apply in_map. eapply Permutation_in; [apply Permutation_sym; exact HP|exact HA].
  - tauto.
Qed.

Lemma c51_event : forall d n olds maxr plan,
  NoDup (map ms_name (all_sets (Some n) olds)) ->
  (exists s u, md_strategy d = RollingUpdate s u) \/ (List.length (active_sets (Some n) olds) <= 1)%nat \/ saturated d (Some n) ->
  scale d (Some n) olds = Some plan ->
  let f := after_plan d maxr plan in
  isScalingEvent d (Some (f n)) (map f olds) = true ->
  (2 <= List.length (active_sets (Some n) olds))%nat /\ 0 < md_replicas d /\ Forall (fun s => ms_spec s <= 0) (f n :: map f olds).
Proof.
  intros d n olds maxr plan HN HS H f HE.
  assert (all_sets (Some n) olds <> []) as Hne. { unfold all_sets. destruct olds; discriminate. }
  pose proof (c51_lemma d (Some n) olds maxr plan HN Hne HS H) as HC.
  assert (map f (all_sets (Some n) olds) = allSets (Some (f n)) (map f olds)) as EM.
  { unfold all_sets, allSets. rewrite map_app. reflexivity. }
  unfold isScalingEvent in HE. fold f in HC. rewrite EM in HC.
  destruct (FilterActiveMachineSets (allSets (Some (f n)) (map f olds))) as [|a act] eqn:EA.
  - assert (Forall (fun s => ms_spec s <= 0) (allSets (Some (f n)) (map f olds))) as HZ.
    { rewrite Forall_forall. intros s Hs. destruct (0 <? ms_spec s) eqn:E; [|lia].
      assert (In s (FilterActiveMachineSets (allSets (Some (f n)) (map f olds)))) as HI by (rewrite active_filter; apply filter_In; auto).
      rewrite EA in HI; destruct HI. }
    assert (0 < md_replicas d) as HR by lia.
    split; [|split; [exact HR|]].
    + destruct (scale_covers _ _ _ _ HS H) as [(m & -> & Hm & Hu)|[(Hsat & HP)|[(L & HP)|HP]]]; [| |exact L|tauto].
      * exfalso. rewrite Forall_forall in HZ. specialize (HZ (f m)).
        assert (In (f m) (allSets (Some (f n)) (map f olds))) as HI by (rewrite <- EM; apply in_map; exact Hm).
        specialize (HZ HI). unfold f, after_plan in HZ. simpl in HZ. rewrite String.eqb_refl in HZ. simpl in HZ. lia.
      * exfalso. destruct Hsat as (n' & E' & A & B & C). injection E' as <-.
        rewrite Forall_forall in HZ. specialize (HZ (f n)).
        assert (In (f n) (allSets (Some (f n)) (map f olds))) as HI by (unfold allSets; apply in_or_app; right; left; reflexivity).
        specialize (HZ HI). unfold f, after_plan in HZ. destruct (find _ plan) as [p|] eqn:EF; [|lia].
        apply find_some in EF. destruct EF as (HI2 & EQ). apply String.eqb_eq in EQ.
        eapply Permutation_in in HI2; [|exact HP]. apply in_map_iff in HI2. destruct HI2 as (o & <- & Ho).
        cbn [fst] in EQ. unfold active_sets, all_sets in Ho. rewrite app_nil_r in Ho. apply filter_In in Ho.
        unfold all_sets in HN. rewrite map_app in HN. cbn [map] in HN.
        apply NoDup_remove_2 in HN. rewrite app_nil_r in HN. apply HN. rewrite <- EQ. apply in_map. tauto.
    + unfold allSets in HZ. apply Forall_app in HZ. destruct HZ as (Z1 & Z2). inversion Z2; subst. constructor; assumption.
  - exfalso. change (existsb (fun s => match ms_desired s with AnnInt n0 => negb (n0 =? md_replicas d) | _ => false end) (a :: act) = true) in HE.
    apply existsb_exists in HE. destruct HE as (x & Hx & E).
    assert (In x (FilterActiveMachineSets (allSets (Some (f n)) (map f olds)))) as HI by (rewrite EA; exact Hx).
    rewrite active_filter in HI. apply filter_In in HI. destruct HI as (HI1 & HI2).
    rewrite (HC x HI1 ltac:(lia)) in E. lia.
Qed.
