(* C45 (template identity) and C68 (names of new MachineSets). *)
Require Import Coq.ZArith.ZArith Coq.NArith.NArith Coq.Lists.List Coq.Strings.String Coq.Bool.Bool Coq.Arith.Arith Coq.micromega.Lia Coq.Sorting.Permutation Coq.Sorting.Sorted.
Require Coq.Numbers.DecimalN Coq.Numbers.DecimalPos Coq.Numbers.DecimalString.
From Verif Require Import Sort MetaModel MetaSpec MetaProofs TmplModel TmplSpec TmplProofs.
Import ListNotations.
Open Scope string_scope.
Open Scope list_scope.
Open Scope nat_scope.

(* C45: equal templates are recognised, whatever the layout of their maps and whatever hash
   labels they carry. *)
Theorem C45_recognised : forall a b, wfT a -> wfT b -> SameTemplate a b -> EqualIgnoreHash a b = true.
Proof. exact equal_complete. Qed.
Print Assumptions C45_recognised.

(* C45: and only equal ones. Partial: if no label has an empty value, and the hash label is
   not on the second template alone. *)
Theorem C45_only_partial : forall a b, wfT a -> wfT b -> noEmpty a -> noEmpty b -> (hasHash b -> hasHash a) ->
  EqualIgnoreHash a b = true -> SameTemplate a b.
Proof. exact equal_sound. Qed.
Print Assumptions C45_only_partial.

(* C45: the MachineSet chosen is one of the template and the oldest of these. *)
Theorem C45_oldest : forall t l s, FindNewMachineSet t l = Some s ->
  In s l /\ EqualIgnoreHash (s_template s) t = true /\
  forall x, In x l -> EqualIgnoreHash (s_template x) t = true -> Older s x.
Proof. exact findNew_some. Qed.
Print Assumptions C45_oldest.
Theorem C45_none : forall t l, FindNewMachineSet t l = None <-> (forall x, In x l -> EqualIgnoreHash (s_template x) t = false).
Proof. exact findNew_none. Qed.
Print Assumptions C45_none.

(* C45: the choice does not depend on the order of the list, nor on how it is sorted. *)
Theorem C45_any_order : forall t l l', Permutation l l' -> NoDup (map s_name l) -> FindNewMachineSet t l = FindNewMachineSet t l'.
Proof. exact findNew_perm. Qed.
Print Assumptions C45_any_order.
Theorem C45_any_sort : forall t l l', Permutation l l' -> StronglySorted Older l' -> NoDup (map s_name l) ->
  FindNewMachineSet t l = find (fun s => EqualIgnoreHash (s_template s) t) l'.
Proof.
  intros t l l' P S N. unfold FindNewMachineSet. f_equal. apply isort_byAge_any; try assumption.
  clear P N. induction S as [|a r S IH F]; constructor; [assumption|]. rewrite Forall_forall in *. intros x I. apply byAge_spec. now apply F.
Qed.
Print Assumptions C45_any_sort.

(* C45: the old sets are all the others, and of these the first list has those with replicas. *)
Theorem C45_olds : forall t l, NoDup (map s_uid l) -> let '(req, all) := FindOldMachineSets t l in
  (forall s, In s all <-> In s l /\ FindNewMachineSet t l <> Some s) /\
  (forall s, In s req <-> In s all /\ s_replicas s <> 0%Z).
Proof.
  intros t l N. unfold FindOldMachineSets. split.
  - intro s. destruct (FindNewMachineSet t l) as [n|] eqn:F.
    + rewrite filter_In, isort_in, negb_true_iff, String.eqb_neq. apply findNew_some in F. destruct F as [I _]. split.
      * intros [A B]. split; [assumption|]. congruence.
      * intros [A B]. split; [assumption|]. intro E. apply B. f_equal.
        clear t B. revert I A E N. induction l as [|x l IH]; [intros []|]. cbn. intros I A E N. inversion N as [|? ? N1 N2]; subst.
        destruct I as [->|I], A as [->|A]; auto.
        -- exfalso. apply N1. rewrite <- E. now apply in_map.
        -- exfalso. apply N1. rewrite E. now apply in_map.
    + rewrite isort_in. split; [intro; split; [assumption|discriminate]|tauto].
  - intro s. rewrite filter_In, negb_true_iff, Z.eqb_neq. tauto.
Qed.
Print Assumptions C45_olds.

(* C45: a MachineSet created for a template is recognised from then on, in every list. *)
Theorem C45_created : forall hash d n uid now l, wfT (d_template d) -> In (newSet hash d n uid now) l ->
  exists s, FindNewMachineSet (d_template d) l = Some s /\ Older s (newSet hash d n uid now).
Proof.
  intros hash d n uid now l W I.
  assert (E : EqualIgnoreHash (s_template (newSet hash d n uid now)) (d_template d) = true)
    by (apply equal_complete; [now apply newSet_wf|assumption|apply newSet_same]).
  destruct (FindNewMachineSet (d_template d) l) as [s|] eqn:F.
  - exists s. split; [reflexivity|]. apply findNew_some in F. now apply F.
  - apply findNew_none with (x := newSet hash d n uid now) in F; [congruence|assumption].
Qed.
Print Assumptions C45_created.

(* C45: after a rollback the template is that of the MachineSet, without its hash, and that
   MachineSet is recognised. *)
Theorem C45_rollback : forall d is, wfT d -> wfT is -> fst (rollbackToTemplate d is) = true ->
  SameTemplate (snd (rollbackToTemplate d is)) is /\ ~ hasHash (snd (rollbackToTemplate d is)) /\
  EqualIgnoreHash is (snd (rollbackToTemplate d is)) = true.
Proof. exact rollback_spec. Qed.
Print Assumptions C45_rollback.

(* C45: none is performed only if there is nothing to do. Partial as above. *)
Theorem C45_no_rollback_partial : forall d is, wfT d -> wfT is -> noEmpty d -> noEmpty is -> (hasHash is -> hasHash d) ->
  fst (rollbackToTemplate d is) = false -> SameTemplate d is.
Proof.
  intros d is A B C D E F. unfold rollbackToTemplate in F. destruct (EqualIgnoreHash d is) eqn:X; [|discriminate]. now apply equal_sound.
Qed.
Print Assumptions C45_no_rollback_partial.

(* Templates and sets for the examples. *)
Definition tpl (labels : Map) (class : string) : Template := mkT labels [] "" "machine.sapcloud.io" "MachineClass" class "" "nodes" "conf".
Definition tset (name : string) (t : Z) (tm : Template) : TSet := mkS ("u-" ++ name)%string name t (Some "d") 1 (t_labels tm) [] tm.
Example C45_case :
  let now := tpl [("pool", "a"); ("os", "x")] "c1" in
  let s1 := tset "s1" 5 (tpl [("os", "x"); (hashKey, "77"); ("pool", "a")] "c1") in
  let s2 := tset "s2" 3 (tpl [(hashKey, "4"); ("os", "x"); ("pool", "a")] "c1") in
  let s3 := tset "s3" 1 (tpl [(hashKey, "4"); ("os", "x"); ("pool", "a")] "c2") in
  FindNewMachineSet now [s1; s2; s3] = Some s2 /\ snd (FindOldMachineSets now [s1; s2; s3]) = [s3; s1] /\
  noEmpty now /\ (hasHash now -> hasHash (s_template s2)).
Proof.
  repeat split. 
  - intros k v [E|[E|[]]] _; injection E as <- <-; discriminate.
  - intros [E|[E|[]]]; discriminate.
Qed.

(* Finding: a label with an empty value may be added to the template without any effect: the
   MachineSet of the template without it is taken for the current one. *)
Theorem C45_empty_value_refuted : ~ (forall a b, wfT a -> wfT b -> ~ hasHash b -> EqualIgnoreHash a b = true -> SameTemplate a b).
Proof.
  intro H. destruct (H (tpl [("pool", "a"); (hashKey, "7")] "c") (tpl [("pool", "a"); ("spot", "")] "c")) as [X _].
  - split; repeat constructor; cbn; intuition discriminate.
  - split; repeat constructor; cbn; intuition discriminate.
  - cbn. intuition discriminate.
  - reflexivity.
  - specialize (X "spot" ltac:(discriminate)). discriminate.
Qed.
Print Assumptions C45_empty_value_refuted.

(* Finding: undoing the addition of a label by rollback is skipped as "the same template":
   with the hash label in place of the added one the two have as many labels, and only those
   of the MachineSet are looked up. *)
Theorem C45_rollback_skipped_refuted : ~ (forall d is, wfT d -> wfT is -> noEmpty d -> noEmpty is -> ~ hasHash d -> hasHash is ->
  fst (rollbackToTemplate d is) = false -> SameTemplate d is).
Proof.
  intro H. destruct (H (tpl [("pool", "a"); ("added", "b")] "c") (tpl [("pool", "a"); (hashKey, "7")] "c")) as [X _].
  - split; repeat constructor; cbn; intuition discriminate.
  - split; repeat constructor; cbn; intuition discriminate.
  - intros k v [E|[E|[]]] _; injection E as <- <-; discriminate.
  - intros k v [E|[E|[]]] N; injection E as <- <-; discriminate.
  - cbn. intuition discriminate.
  - cbn. tauto.
  - reflexivity.
  - specialize (X "added" ltac:(discriminate)). discriminate.
Qed.
Print Assumptions C45_rollback_skipped_refuted.

(* Finding: the comparison depends on the order of its arguments. *)
Theorem C45_symmetric_refuted : ~ (forall a b, wfT a -> wfT b -> EqualIgnoreHash a b = EqualIgnoreHash b a).
Proof.
  intro H. specialize (H (tpl [("pool", "a"); ("added", "b")] "c") (tpl [("pool", "a"); (hashKey, "7")] "c")).
  assert (X : true = false); [|discriminate]. apply H; split; repeat constructor; cbn; intuition discriminate.
Qed.
Print Assumptions C45_symmetric_refuted.

(** * C68 *)

(* C68: a MachineSet that was there already is used only if it is the deployment's own and
   passes as one of its template. *)
Theorem C68_passed : forall hash e d n uid now s d', attempt hash e d n uid now = (CPassed s, d') ->
  d' = d /\ c_lister e = Some s /\ s_owner s = Some (d_uid d) /\ EqualIgnoreHash (d_template d) (s_template s) = true.
Proof. exact attempt_passed. Qed.
Print Assumptions C68_passed.

(* C68: otherwise each collision is counted and the next name is tried: the MachineSet is
   created under the first name that is free. *)
Theorem C68_created : forall k hash store d n uid now,
  (forall j, j < k -> exists s, find (fun s => String.eqb (s_name s) (nameOf hash (after j d))) store = Some s /\ ~ mine d s) ->
  (forall s, In s store -> s_name s <> nameOf hash (after k d)) ->
  forall fuel, k < fuel -> attempts fuel hash store d n uid now = (CCreated (newSet hash (after k d) n uid now), after k d).
Proof. exact attempts_spec. Qed.
Print Assumptions C68_created.

(* C68: what is created has the deployment for its owner and its template, its selector
   selects its own machines, and the deployment's selector selects it. *)
Theorem C68_selects : forall hash d n uid now, isMap (d_selector d) -> Matches (d_selector d) (t_labels (d_template d)) ->
  ~ In hashKey (keys (d_selector d)) ->
  let s := newSet hash d n uid now in
  s_owner s = Some (d_uid d) /\ SameTemplate (s_template s) (d_template d) /\
  Matches (s_selector s) (t_labels (s_template s)) /\ Matches (d_selector d) (s_labels s).
Proof.
  intros hash d n uid now A B C s. destruct (newSet_selects hash d n uid now A B C) as [X [Y _]].
  split; [reflexivity|]. split; [apply newSet_same|]. split; assumption.
Qed.
Print Assumptions C68_selects.

(* C68: machines of another template are not selected: the hash in the selector differs. *)
Theorem C68_apart : forall hash d d' n n' uid uid' now now', isMap (d_selector d) ->
  hash (d_template d) (d_collisions d) <> hash (d_template d') (d_collisions d') ->
  ~ Matches (s_selector (newSet hash d n uid now)) (t_labels (s_template (newSet hash d' n' uid' now'))).
Proof.
  intros hash d d' n n' uid uid' now now' M N X. specialize (X hashKey (decimal (hash (d_template d) (d_collisions d)))).
  unfold newSet, withLabel in X. cbn [s_selector s_template t_labels] in X. specialize (X (or_introl eq_refl)).
  rewrite get_put, String.eqb_refl in X. injection X as X. apply N. symmetry.
  unfold decimal in X. apply (f_equal DecimalString.NilZero.uint_of_string) in X.
  rewrite !DecimalString.NilZero.usu in X.
  - injection X as X. apply (f_equal N.of_uint) in X. now rewrite !DecimalN.Unsigned.of_to in X.
  - destruct (hash (d_template d) (d_collisions d)); [discriminate|]. cbn. apply DecimalPos.Unsigned.to_uint_nonnil.
  - destruct (hash (d_template d') (d_collisions d')); [discriminate|]. cbn. apply DecimalPos.Unsigned.to_uint_nonnil.
Qed.
Print Assumptions C68_apart.

(* C68: two hashes give the same name exactly if their first five decimal digits agree: there
   are not more than a hundred thousand names. *)
Theorem C68_names : forall d h h', setName d h = setName d h' <-> substring 0 5 (decimal h) = substring 0 5 (decimal h').
Proof. exact setName_spec. Qed.
Print Assumptions C68_names.

(* A collision, counted, and the next name free. *)
Definition hashC (t : Template) (c : option N) : N := match c with None => 1234567890%N | Some n => (2234567890 + n)%N end.
Definition depC := mkD "d" "pool" [("pool", "a")] (tpl [("pool", "a"); ("added", "b")] "c") None.
Example C68_case :
  setName "pool" 1234567890 = "pool-56789" /\ setName "pool" 1234599999 = "pool-56789" /\
  fst (attempts 3 hashC [mkS "u" "pool-56789" 1 (Some "other") 3 [] [] (tpl [] "x")] depC 2 "u2" 9) =
    CCreated (newSet hashC (mkD "d" "pool" [("pool", "a")] (tpl [("pool", "a"); ("added", "b")] "c") (Some 1%N)) 2 "u2" 9).
Proof. repeat split; vm_compute; reflexivity. Qed.

(* Finding: on a collision with a MachineSet of an earlier template that lacks one label, that
   old set is used as the new one. *)
Theorem C68_wrong_set_refuted : ~ (forall hash e d n uid now s d', wfT (d_template d) -> noEmpty (d_template d) -> wfT (s_template s) -> noEmpty (s_template s) ->
  attempt hash e d n uid now = (CPassed s, d') -> SameTemplate (d_template d) (s_template s)).
Proof.
  intro H. remember (mkS "u" "pool-56789" 1 (Some "d") 3 [] [] (tpl [("pool", "a"); (hashKey, "7")] "c")) as s.
  destruct (H hashC (mkC true false (Some s) true) depC 2%Z "u2" 9%Z s depC) as [X _].
  - split; repeat constructor; cbn; intuition discriminate.
  - intros k v [E|[E|[]]] _; injection E as <- <-; discriminate.
  - subst s. split; repeat constructor; cbn; intuition discriminate.
  - subst s. intros k v [E|[E|[]]] N; injection E as <- <-; discriminate.
  - subst s. reflexivity.
  - subst s. specialize (X "added" ltac:(discriminate)). discriminate.
Qed.
Print Assumptions C68_wrong_set_refuted.

(* Finding: if the lister does not know the set that is in the way, nothing is counted: the
   same name is tried again. *)
Theorem C68_not_counted_refuted : ~ (forall hash e d n uid now, c_exists e = true -> c_status e = true ->
  d_collisions (snd (attempt hash e d n uid now)) <> d_collisions d \/ exists s, fst (attempt hash e d n uid now) = CPassed s).
Proof.
  intro H. destruct (H hashC (mkC true false None true) depC 2%Z "u2" 9%Z eq_refl eq_refl) as [X|[s X]]; [now apply X|discriminate].
Qed.
Print Assumptions C68_not_counted_refuted.
