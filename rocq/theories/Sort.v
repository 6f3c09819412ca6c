(** Sorting as used by the Go code (sort.Sort): any permutation that is sorted.
    The model uses insertion sort; what proofs use of it is only what holds of
    every correct sort. External: package sort of the Go library. *)
Require Import Coq.Lists.List Coq.Sorting.Permutation Coq.Sorting.Sorted Coq.Bool.Bool.
Import ListNotations.

Section Isort.
  Context {A : Type} (leb : A -> A -> bool).

  (** Stands for sort.Sort of the Go library (external).
      Called e.g. at pkg/controller/deployment_rolling.go 214, 263. *)
  Fixpoint insert (x : A) (l : list A) : list A :=
    match l with
    | [] => [x]
    | y :: r => if leb x y then x :: l else y :: insert x r
    end.

  (** Stands for sort.Sort of the Go library (external).
      Called e.g. at pkg/controller/deployment_rolling.go 214, 263, machineset.go 652. *)
  Fixpoint isort (l : list A) : list A :=
    match l with
    | [] => []
    | x :: r => insert x (isort r)
    end.

  Lemma insert_perm : forall x l, Permutation (x :: l) (insert x l).
  Proof.
    induction l as [|y r IH]; simpl; [reflexivity|].
    destruct (leb x y); [reflexivity|].
    rewrite perm_swap. constructor. exact IH.
  Qed.

  Lemma isort_perm : forall l, Permutation l (isort l).
  Proof.
    induction l as [|x r IH]; simpl; [constructor|].
    rewrite <- insert_perm. constructor. exact IH.
  Qed.

  Lemma isort_length : forall l, length (isort l) = length l.
  Proof. intros. symmetry. apply Permutation_length, isort_perm. Qed.

  Lemma isort_in : forall l x, In x (isort l) <-> In x l.
  Proof.
    intros; split; intro H.
    - eapply Permutation_in; [apply Permutation_sym, isort_perm|exact H].
    - eapply Permutation_in; [apply isort_perm|exact H].
  Qed.

  (** What the Less functions have to satisfy, e.g. pkg/controller/controller_utils.go 731-787. *)
  Definition total := forall a b, leb a b = true \/ leb b a = true.
  (** What the Less functions have to satisfy, e.g. pkg/controller/controller_utils.go 731-787. *)
  Definition transitive := forall a b c, leb a b = true -> leb b c = true -> leb a c = true.

  Lemma insert_sorted : total -> transitive -> forall x l,
    StronglySorted (fun a b => leb a b = true) l ->
    StronglySorted (fun a b => leb a b = true) (insert x l).
  Proof.
    intros HT HTr x l H. induction H as [|y r Hs IH Hf]; simpl.
    - repeat constructor.
    - destruct (leb x y) eqn:E.
      + constructor; [constructor; assumption|].
        constructor; [exact E|].
        rewrite Forall_forall in *. intros z Hz. eapply HTr; eauto.
      + constructor; [exact IH|].
        rewrite Forall_forall in *. intros z Hz.
        assert (In z (x :: r)) as Hz'.
        { eapply Permutation_in; [apply Permutation_sym, insert_perm|exact Hz]. }
        destruct Hz' as [<-|Hz'].
        * destruct (HT x y) as [H1|H1]; congruence.
        * auto.
  Qed.

  Lemma isort_sorted : total -> transitive -> forall l,
    StronglySorted (fun a b => leb a b = true) (isort l).
  Proof.
    intros HT HTr l. induction l; simpl; [constructor|].
    apply insert_sorted; assumption.
  Qed.
End Isort.
