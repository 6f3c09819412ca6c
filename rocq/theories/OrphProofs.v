(** Proofs about the safety pass. *)
Require Import Coq.ZArith.ZArith Coq.Lists.List Coq.Strings.String Coq.Bool.Bool Coq.micromega.Lia Coq.micromega.ZifyBool.
From Verif Require Import WakeModel WakeSpec WakeProofs OrphModel OrphSpec.
Import ListNotations.
Open Scope string_scope.
Open Scope list_scope.

(** ** Maps *)

Lemma in_ddel k k' v d : In (k', v) (ddel k d) <-> In (k', v) d /\ k' <> k.
Proof.
  unfold ddel. rewrite filter_In. cbn. split; intros (A & B); split; auto.
  - intros ->. rewrite String.eqb_refl in B. discriminate.
  - apply negb_true_iff, String.eqb_neq, B.
Qed.

Lemma in_dput k v k' v' d : In (k', v') (dput k v d) <-> (k' = k /\ v' = v) \/ (In (k', v') d /\ k' <> k).
Proof.
  unfold dput. cbn [In]. change (filter (fun p => negb (String.eqb (fst p) k)) d) with (ddel k d). rewrite in_ddel.
  split; [intros [X | X]; [injection X as -> ->; auto | auto] | intros [(-> & ->) | X]; auto].
Qed.

Lemma in_puts k v : forall b a, NoDup (map fst b) ->
  (In (k, v) (fold_left (fun out p => dput (fst p) (snd p) out) b a) <-> In (k, v) b \/ (In (k, v) a /\ lacks b k)).
Proof.
  induction b as [| (x, y) b IH]; intros a ND; cbn [fold_left].
  - split; [intros H; right; split; [exact H | intros w []] | intros [[] | (H & _)]; exact H].
  - cbn in ND. inversion ND as [| ? ? N1 N2]; subst. rewrite IH by exact N2. cbn [fst snd]. rewrite in_dput. unfold lacks. cbn [In].
    assert (F : forall w, ~ In (x, w) b). { intros w W. apply N1. apply (in_map fst) in W. exact W. }
    split.
    + intros [H | ([(-> & ->) | (H & N)] & L)]; auto. right. split; [exact H|].
      intros w [E | E]; [injection E as -> _; contradiction | apply (L w E)].
    + intros [[E | H] | (H & L)].
      * injection E as -> ->. right. split; auto.
      * left. exact H.
      * right. split; [right; split; [exact H|] | intros w W; apply (L w); auto].
        intros ->. apply (L y). left. reflexivity.
Qed.

Lemma merge_spec a b k v : NoDup (map fst a) -> NoDup (map fst b) ->
  (In (k, v) (mergeDataMaps a b) <-> In (k, v) b \/ (In (k, v) a /\ lacks b k)).
Proof.
  intros A B. unfold mergeDataMaps. rewrite in_puts by exact B. rewrite in_puts by exact A. cbn [In].
  split; intros [H | (H & L)]; auto; right; split; auto; try (destruct H as [H | (H & _)]; [exact H | destruct H]).
Qed.

Lemma dget_none k d : dget k d = None <-> lacks d k.
Proof.
  unfold dget, lacks. split.
  - intros H v I. destruct (find _ d) as [p|] eqn:F; [discriminate|]. pose proof (find_none _ _ F _ I) as N. cbn in N.
    rewrite String.eqb_refl in N. discriminate.
  - intros H. destruct (find _ d) as [(a, b)|] eqn:F; [|reflexivity]. apply find_some in F as (I & E). cbn in E.
    apply String.eqb_eq in E. subst a. destruct (H b I).
Qed.

Lemma dget_some k d v : dget k d = Some v <-> holds d k v.
Proof.
  unfold dget, holds. induction d as [| (a, b) l IH]; cbn.
  - split; [discriminate|]. intros (l1 & l2 & E & _). destruct l1; discriminate.
  - destruct (String.eqb a k) eqn:E.
    + apply String.eqb_eq in E. subst a. cbn. split.
      * intros H. injection H as <-. exists [], l. split; [reflexivity|]. intros v' [].
      * intros (l1 & l2 & E & N). destruct l1 as [| y l1]; cbn in E; injection E as E1 E2; [congruence|]. subst y.
        exfalso. apply (N b). left. reflexivity.
    + rewrite IH. apply String.eqb_neq in E. split.
      * intros (l1 & l2 & -> & N). exists ((a, b) :: l1), l2. split; [reflexivity|]. intros v' [X | X]; [congruence|]. apply (N v' X).
      * intros (l1 & l2 & F & N). destruct l1 as [| y l1]; cbn in F; injection F as F1 F2; [congruence|]. exists l1, l2.
        split; [exact F2|]. intros v' X. apply (N v'). right. exact X.
Qed.

Lemma find_filter (k k' : string) (d : Data) : k' <> k ->
  find (fun p => String.eqb (fst p) k') (filter (fun p => negb (String.eqb (fst p) k)) d) = find (fun p => String.eqb (fst p) k') d.
Proof.
  intros N. induction d as [| (a, b) d IH]; [reflexivity|]. cbn. destruct (String.eqb_spec a k) as [->|E]; cbn.
  - destruct (String.eqb_spec k k'); [congruence | exact IH].
  - destruct (String.eqb a k'); [reflexivity | exact IH].
Qed.

Lemma ddel_same k d : sameBut k (ddel k d) d.
Proof. intros k' v N. rewrite <- !dget_some. unfold dget, ddel. rewrite find_filter by exact N. reflexivity. Qed.
Lemma dput_same k v d : sameBut k (dput k v d) d.
Proof.
  intros k' v' N. rewrite <- !dget_some. unfold dget, dput. cbn. destruct (String.eqb_spec k k'); [congruence|].
  rewrite find_filter by exact N. reflexivity.
Qed.
Lemma dput_holds k v d : holds (dput k v d) k v.
Proof. exists [], (filter (fun p => negb (String.eqb (fst p) k)) d). split; [reflexivity|]. intros v' []. Qed.
Lemma ddel_lacks k d : lacks (ddel k d) k.
Proof. intros v I. apply in_ddel in I as (_ & N). congruence. Qed.
Lemma holds_not_lacks d k v : holds d k v -> ~ lacks d k.
Proof. intros (l1 & l2 & -> & _) L. apply (L v). apply in_or_app. right. left. reflexivity. Qed.

(** ** Orphans *)

Lemma left_spec id m : leftAlone id m = false <-> orphaned m id.
Proof.
  unfold leftAlone, orphaned. destruct m as [m|]; [|tauto]. rewrite !orb_false_iff, !String.eqb_neq. tauto.
Qed.

Lemma readable_data c : readable c -> exists d, getSecretData None [cl_secret c; cl_creds c] = SData d.
Proof.
  intros (A & B). cbn. destruct (cl_secret c) as [[x | |]|]; try (exfalso; apply A; reflexivity);
  destruct (cl_creds c) as [[y | |]|]; try (exfalso; apply B; reflexivity); eauto.
Qed.

Lemma check_one seen c vms : readable c -> exists d, checkMachineClass seen c (Some vms) =
  (ListVMs (cl_name c) d :: map (fun p => DeleteVM (cl_name c) (fst p) (snd p) d)
     (filter (fun p => negb (leftAlone (fst p) (seen (fst p) (snd p)))) vms), EOk).
Proof. intros R. destruct (readable_data c R) as (d & E). exists d. unfold checkMachineClass. rewrite E. reflexivity. Qed.

Lemma in_deletes cls d seen vms c0 id name d0 :
  In (DeleteVM c0 id name d0) (ListVMs cls d :: map (fun p => DeleteVM cls (fst p) (snd p) d)
     (filter (fun p => negb (leftAlone (fst p) (seen (fst p) (snd p)))) vms)) <->
  c0 = cls /\ d0 = d /\ In (id, name) vms /\ orphaned (seen id name) id.
Proof.
  cbn [In]. rewrite in_map_iff. rewrite <- left_spec. split.
  - intros [X | ((a, b) & E & I)]; [discriminate|]. apply filter_In in I as (I & F). cbn in *. injection E as -> -> -> ->.
    apply negb_true_iff in F. auto.
  - intros (-> & -> & I & F). right. exists (id, name). split; [reflexivity|]. apply filter_In. cbn. rewrite F. auto.
Qed.

Lemma classes_app seen : forall pre r, (forall c a, In (c, a) pre -> readable c /\ a <> None) ->
  exists l, checkMachineClasses seen (pre ++ r) = (l ++ fst (checkMachineClasses seen r), snd (checkMachineClasses seen r)) /\
    forall cls id name d, In (DeleteVM cls id name d) l -> exists c a, In (c, a) pre /\ cl_name c = cls.
Proof.
  induction pre as [| (c, a) pre IH]; intros r H; cbn [app].
  - exists []. cbn. destruct (checkMachineClasses seen r). split; [reflexivity|]. intros ? ? ? ? [].
  - destruct (H c a (or_introl eq_refl)) as (R & A). destruct a as [vms|]; [|congruence].
    cbn [checkMachineClasses]. destruct (check_one seen c vms R) as (d & ->).
    destruct (IH r) as (l & -> & L). { intros c' a' I. apply H. right. exact I. }
    eexists. split; [rewrite app_assoc; reflexivity|]. intros cls id name d0 I. apply in_app_or in I as [I | I].
    + apply in_deletes in I as (-> & _). exists c, (Some vms). split; [left; reflexivity | reflexivity].
    + destruct (L _ _ _ _ I) as (c' & a' & I' & E). exists c', a'. split; [right; exact I' | exact E].
Qed.

Lemma deletes_only seen : forall cs cls id name d, In (DeleteVM cls id name d) (fst (checkMachineClasses seen cs)) ->
  exists c vms, In (c, Some vms) cs /\ cl_name c = cls /\ In (id, name) vms /\ orphaned (seen id name) id /\
    getSecretData None [cl_secret c; cl_creds c] = SData d.
Proof.
  induction cs as [| (c, a) cs IH]; intros cls id name d; cbn [checkMachineClasses]; [intros []|].
  unfold checkMachineClass. destruct (getSecretData None [cl_secret c; cl_creds c]) as [d0|] eqn:S; [|intros []].
  destruct a as [vms|]; [|intros [X | []]; discriminate].
  destruct (checkMachineClasses seen cs) as (l & e). cbn [fst] in *. intros I. apply in_app_or in I as [I | I].
  - apply in_deletes in I as (-> & -> & I & O). exists c, vms. repeat split; auto. left. reflexivity.
  - destruct (IH _ _ _ _ I) as (c' & v' & I' & H). exists c', v'. split; [right; exact I' | exact H].
Qed.

(** ** Nodes *)

Lemma nobody_filter ms node : nobodyOn ms node <->
  filter (fun m => match wm_node m with Some x => String.eqb x node | None => false end) ms = [].
Proof.
  unfold nobodyOn, runsOn. split.
  - intros H. apply filter_none. intros m I. specialize (H m I). destruct (wm_node m); [|reflexivity]. apply String.eqb_neq. congruence.
  - intros E m I R. assert (X : In m (filter (fun m => match wm_node m with Some x => String.eqb x node | None => false end) ms)).
    { apply filter_In. split; [exact I|]. rewrite R. apply String.eqb_refl. }
    rewrite E in X. destruct X.
Qed.

Lemma only_filter ms node m : onlyOn ms node m ->
  filter (fun m => match wm_node m with Some x => String.eqb x node | None => false end) ms = [m].
Proof.
  intros O. apply get_only in O. unfold getMachineFromNode in O.
  destruct (filter _ ms) as [| x [|]]; try discriminate. congruence.
Qed.

Lemma nodes_calls now timeout ms fails : forall nodes node a,
  In (UpdateNode node a) (fst (AnnotateNodesUnmanagedByMCM now timeout ms fails nodes)) ->
  exists n, In n nodes /\ on_name n = node /\ annotateNode now timeout (ms node) n = Some a.
Proof.
  induction nodes as [| n nodes IH]; intros node a; cbn [AnnotateNodesUnmanagedByMCM]; [intros []|].
  destruct (annotateNode now timeout (ms (on_name n)) n) as [x|] eqn:E.
  - destruct (fails (on_name n)).
    + intros [X | []]. injection X as <- <-. exists n. split; [left; reflexivity | auto].
    + destruct (AnnotateNodesUnmanagedByMCM now timeout ms fails nodes) as (l & e). cbn [fst] in *.
      intros [X | X]; [injection X as <- <-; exists n; split; [left; reflexivity | auto]|].
      destruct (IH _ _ X) as (n' & I & H). exists n'. split; [right; exact I | exact H].
  - intros X. destruct (IH _ _ X) as (n' & I & H). exists n'. split; [right; exact I | exact H].
Qed.

Lemma nodes_written now timeout ms fails : forall nodes n, NoDup (map on_name nodes) ->
  (forall x, In x nodes -> fails (on_name x) = false) -> In n nodes ->
  let calls := fst (AnnotateNodesUnmanagedByMCM now timeout ms fails nodes) in
  written calls n (match annotateNode now timeout (ms (on_name n)) n with Some a => a | None => on_annots n end) /\
  snd (AnnotateNodesUnmanagedByMCM now timeout ms fails nodes) = EOk.
Proof.
  induction nodes as [| x nodes IH]; intros n ND F I; [destruct I|].
  cbn [map] in ND. inversion ND as [| ? ? N1 N2]; subst. cbn [AnnotateNodesUnmanagedByMCM].
  assert (FE : fails (on_name x) = false) by (apply F; left; reflexivity).
  assert (OK : snd (AnnotateNodesUnmanagedByMCM now timeout ms fails nodes) = EOk).
  { clear - F. induction nodes as [| y nodes IHn]; [reflexivity|]. cbn [AnnotateNodesUnmanagedByMCM].
    assert (IHn' : snd (AnnotateNodesUnmanagedByMCM now timeout ms fails nodes) = EOk).
    { apply IHn. intros z [Z | Z]; apply F; [left; exact Z | right; right; exact Z]. }
    destruct (annotateNode now timeout (ms (on_name y)) y); [|exact IHn'].
    rewrite F by (right; left; reflexivity). destruct (AnnotateNodesUnmanagedByMCM now timeout ms fails nodes). exact IHn'. }
  assert (NX : forall a, ~ In (UpdateNode (on_name x) a) (fst (AnnotateNodesUnmanagedByMCM now timeout ms fails nodes))).
  { intros a H. apply nodes_calls in H as (y & Y & E & _). apply N1. rewrite <- E. apply in_map, Y. }
  destruct I as [-> | I].
  - destruct (annotateNode now timeout (ms (on_name n)) n) as [a|] eqn:E.
    + rewrite FE. destruct (AnnotateNodesUnmanagedByMCM now timeout ms fails nodes). cbn [fst snd] in *. split; [|exact OK].
      left. left. reflexivity.
    + split; [|exact OK]. right. split; [reflexivity | exact NX].
  - destruct (IH n N2 (fun y Y => F y (or_intror Y)) I) as (W & _). cbv zeta in W.
    assert (NE : on_name n <> on_name x). { intros E. apply N1. rewrite <- E. apply in_map, I. }
    destruct (annotateNode now timeout (ms (on_name x)) x) as [a|] eqn:E; [|split; [exact W | exact OK]].
    rewrite FE. destruct (AnnotateNodesUnmanagedByMCM now timeout ms fails nodes). cbn [fst snd] in *. split; [|exact OK].
    destruct W as [W | (W1 & W2)]; [left; right; exact W | right; split; [exact W1|]].
    intros a' [X | X]; [injection X as X1 X2; congruence | apply (W2 a' X)].
Qed.
