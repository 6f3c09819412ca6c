(** Proofs for C120. *)
Require Import Coq.ZArith.ZArith Coq.Lists.List Coq.Strings.String Coq.Bool.Bool Coq.micromega.Lia.
From Verif Require Import StartModel FlagModel FlagSpec.
Import ListNotations.
Open Scope string_scope.
Open Scope list_scope.

Fixpoint nodupb (l : list string) : bool :=
  match l with [] => true | x :: r => negb (existsb (String.eqb x) r) && nodupb r end.
Lemma nodupb_ok : forall l, nodupb l = true -> NoDup l.
Proof.
  induction l as [|x l IH]; intro H; [constructor|]. cbn in H. apply andb_prop in H as [N H]. constructor; [|now apply IH].
  intro I. apply negb_true_iff in N. rewrite <- not_true_iff_false in N. apply N. apply existsb_exists. exists x. split; [exact I|apply String.eqb_refl].
Qed.

Lemma names_once : forall p, NoDup (map f_name (flagsOf p)).
Proof. intros []; apply nodupb_ok; vm_compute; reflexivity. Qed.
Lemma fields_once : forall p, NoDup (map f_field (flagsOf p)).
Proof. intros []; apply nodupb_ok; vm_compute; reflexivity. Qed.

Lemma once {A} (g : A -> string) : forall l, NoDup (map g l) -> forall a b, In a l -> In b l -> g a = g b -> a = b.
Proof.
  induction l as [|x l IH]; intros N a b [] ; cbn in N; inversion N as [|? ? X N']; subst.
  - intros [->|I] E; [reflexivity|]. exfalso. apply X. rewrite E. now apply in_map.
  - intros [->|J] E; [exfalso; apply X; rewrite <- E; now apply in_map|]. now apply IH.
Qed.

Lemma find_flag : forall p n f, find (fun f => String.eqb (f_name f) n) (flagsOf p) = Some f -> In f (flagsOf p) /\ f_name f = n.
Proof. intros p n f H. apply find_some in H as [I E]. apply String.eqb_eq in E. now split. Qed.
Lemma find_known : forall p f, In f (flagsOf p) -> find (fun g => String.eqb (f_name g) (f_name f)) (flagsOf p) = Some f.
Proof.
  intros p f I. destruct (find _ _) as [g|] eqn:E.
  - apply find_flag in E as [J E]. now rewrite (once f_name _ (names_once p) g f J I E).
  - exfalso. apply (find_none _ _ E) in I. now rewrite String.eqb_refl in I.
Qed.
Lemma find_unknown : forall p n, find (fun g => String.eqb (f_name g) n) (flagsOf p) = None -> ~ exists f, In f (flagsOf p) /\ f_name f = n.
Proof. intros p n H (f & I & <-). now rewrite find_known in H. Qed.

Lemma set_same : forall s f v, set s f v f = v.
Proof. intros. unfold set. now rewrite String.eqb_refl. Qed.
Lemma set_other : forall s f v g, g <> f -> set s f v g = s g.
Proof. intros s f v g N. unfold set. apply String.eqb_neq in N. now rewrite N. Qed.

Lemma default_of : forall l, NoDup (map f_field l) -> forall f, In f l -> defaults l (f_field f) = f_default f.
Proof.
  induction l as [|x l IH]; intros N f []; cbn [defaults fold_right]; cbn in N; inversion N as [|? ? X N']; subst.
  - now rewrite set_same.
  - rewrite set_other; [now apply IH|]. intro E. apply X. rewrite <- E. now apply in_map.
Qed.

Lemma parse_spec : forall pv p args s s', parse pv (flagsOf p) args s = Some s' -> forall f, In f (flagsOf p) ->
  (absent args (f_name f) -> s' (f_field f) = s (f_field f)) /\
  (forall v, lastGiven args (f_name f) v -> pv (f_kind f) v = Some (s' (f_field f))).
Proof.
  intros pv p. induction args as [|[n v] r IH]; intros s s' H f I; cbn in H.
  - injection H as <-. split; [reflexivity|]. intros v (b & a & E & _). destruct b; discriminate.
  - destruct (find _ _) as [g|] eqn:F; [|discriminate]. apply find_flag in F as [J E].
    destruct (pv (f_kind g) v) as [x|] eqn:X; [|discriminate]. destruct (IH _ _ H f I) as [A G]. split.
    + intro N. rewrite A by (intros w W; apply (N w); now right). apply set_other. intro C.
      apply (once f_field _ (fields_once p) f g I J) in C. subst g. apply (N v). left. now rewrite E.
    + intros w (b & a & Q & N). destruct b as [|y b]; cbn in Q.
      * injection Q as Q1 Q2 Q3. subst r. subst v. rewrite (A N).
        assert (g = f) by (apply (once f_name _ (names_once p)); congruence). subst g. now rewrite set_same.
      * injection Q as Q1 Q2. subst r. apply G. now exists b, a.
Qed.

Lemma parse_none : forall pv p args s, parse pv (flagsOf p) args s = None <->
  exists n v, In (n, v) args /\ forall f, In f (flagsOf p) -> f_name f = n -> pv (f_kind f) v = None.
Proof.
  intros pv p. induction args as [|[n v] r IH]; intros s; cbn.
  - split; [discriminate|]. intros (n & v & [] & _).
  - destruct (find _ _) as [g|] eqn:F.
    + apply find_flag in F as [J E]. destruct (pv (f_kind g) v) as [x|] eqn:X.
      * rewrite IH. split; intros (m & w & I & H); exists m, w; (split; [|exact H]); [now right|].
        destruct I as [I|I]; [|exact I]. injection I as <- <-. rewrite (H g J E) in X. discriminate.
      * split; [intros _|reflexivity]. exists n, v. split; [now left|]. intros f I E'.
        rewrite (once f_name _ (names_once p) f g I J); congruence.
    + split; [intros _|reflexivity]. exists n, v. split; [now left|]. intros f I E. destruct (find_unknown p n F). now exists f.
Qed.

Lemma value_field : forall p s f, In f (flagsOf p) -> valueOf p s (f_name f) (s (f_field f)).
Proof. intros p s f I. now exists f. Qed.
Lemma value_is : forall p s f v, In f (flagsOf p) -> valueOf p s (f_name f) v -> s (f_field f) = v.
Proof. intros p s f v I (g & J & E & <-). now rewrite (once f_name _ (names_once p) g f J I E). Qed.

(* A flag by its name. *)
Lemma value_named : forall p s n v f, find (fun g => String.eqb (f_name g) n) (flagsOf p) = Some f -> valueOf p s n v <-> s (f_field f) = v.
Proof.
  intros p s n v f F. apply find_flag in F as [I <-]. split; [now apply value_is|]. intros <-. now apply value_field.
Qed.
Lemma value_unknown : forall p s n v, find (fun g => String.eqb (f_name g) n) (flagsOf p) = None -> ~ valueOf p s n v.
Proof. intros p s n v F (f & I & E & _). apply (find_unknown p n F). now exists f. Qed.

Ltac byName H :=
  first [ rewrite value_named in H by (vm_compute; reflexivity); cbn [f_field] in H
        | apply value_unknown in H; [destruct H|vm_compute; reflexivity] ].

Lemma reaches : forall p s name pl v, In (name, pl) partOf -> valueOf p s name v ->
  (match switchOf pl with Some "target-kubeconfig" => v <> VStr "" /\ v <> VStr "inClusterConfig" /\ exists t, v = VStr t
   | Some sw => valueOf p s sw (VBool true) | None => True end) ->
  used p s pl = Some v.
Proof.
  intros p s name pl v I V W. unfold partOf in I. cbn [In] in I.
  repeat match goal with H : _ \/ _ |- _ => destruct H as [H|H] end; try contradiction; injection I as <- <-;
    destruct p; byName V; cbn [switchOf] in W; cbn [used]; rewrite ?V; try reflexivity;
    try (byName W; unfold on; rewrite W, ?V; reflexivity);
    (destruct W as (N1 & N2 & t & ->); unfold text; rewrite V;
     destruct (String.eqb_spec t ""); [congruence|]; destruct (String.eqb_spec t "inClusterConfig"); [congruence|reflexivity]).
Qed.

Lemma listens : forall p s s' name, differIn name p s s' ->
  forall pl, ~ In (name, pl) partOf -> switchOf pl <> Some name -> used p s pl = used p s' pl.
Proof.
  intros p s s' name D pl N W.
  assert (G : forall fld f, find (fun g => String.eqb (f_field g) fld) (flagsOf p) = Some f ->
              In (f_name f, pl) partOf \/ switchOf pl = Some (f_name f) -> s fld = s' fld).
  { intros fld f F X. apply find_some in F as [I E]. apply String.eqb_eq in E. subst fld. apply D; [exact I|].
    intro E. rewrite E in X. tauto. }
  clear D N W.
  destruct p, pl; cbn [used]; try reflexivity; unfold on, text;
    repeat match goal with |- context [s ?fld] => 
      let H := fresh in eassert (H : s fld = s' fld);
      [ eapply G; [vm_compute; reflexivity|]; cbn [f_name];
        first [right; reflexivity | left; unfold partOf; repeat (first [left; reflexivity | right])]
      | rewrite H; clear H ] end; reflexivity.
Qed.
