(** Storing and removing the mark of a tainted MachineSet (C118): theorems. *)
Require Import Coq.ZArith.ZArith Coq.Lists.List Coq.Strings.String Coq.Bool.Bool Coq.Arith.PeanoNat Lia.
From Verif Require Import MarkModel MarkSpec MarkProofs.
Import ListNotations.
Open Scope string_scope.
Open Scope list_scope.
Open Scope Z_scope.

(** C118: whatever fails and whoever else writes, a step of the call changes nothing in the API server but the
    mark of a MachineSet that is there; its other annotations and all else are as they were stored. *)
Theorem C118_only_the_mark : forall rm now srv v sets ops f k,
  versions srv v ->
  let w := mrun rm (minit now srv v sets) ops in let w' := mstep rm w (Go f) in
  m_srv w' k = m_srv w k \/
  exists o o', m_srv w k = Some o /\ m_srv w' k = Some o' /\ o_rest o' = o_rest o /\ right rm o' /\
    forall a, a <> MarkKey -> look a (o_ann o') = look a (o_ann o).
Proof. intros rm now srv v sets ops f k V. apply only_mark, ok_run, ok_init, V. Qed.
Print Assumptions C118_only_the_mark.

(** C118: if the call returns without an error, every one of its sets has had its mark set (removed). *)
Theorem C118_success_is_true : forall rm now srv v sets ops,
  versions srv v -> m_pc (mrun rm (minit now srv v sets) ops) = End false ->
  forall k, In k sets -> exists w o, In w (mstates rm (minit now srv v sets) ops) /\ m_srv w k = Some o /\ right rm o.
Proof. exact all_marked. Qed.
Print Assumptions C118_success_is_true.

(** C118: there are at most 26 requests per set. *)
Theorem C118_few_requests : forall rm now srv v sets ops,
  (requests rm (minit now srv v sets) ops <= 26 * List.length sets)%nat.
Proof. exact requests_few. Qed.
Print Assumptions C118_few_requests.

(** C118: if no stage takes longer than [d], the call is over 65 s and four stages per set after its start. *)
Theorem C118_over_in_time : forall rm d now srv v sets ops,
  0 <= d -> let w := mrun rm (minit now srv v sets) ops in
  Forall (prompt d) (mstates rm (minit now srv v sets) ops) ->
  now + Z.of_nat (List.length sets) * (65000 + 4 * d) < m_now w -> exists e, m_pc w = End e.
Proof. exact in_time. Qed.
Print Assumptions C118_over_in_time.

(** C118: setting the mark outlives conflicts and failing updates. If reading works and, from time [s] within
    the minute on, updates work and nobody else writes, the call does not fail, and ends 5 s and five stages
    after [s] at the latest, with the mark stored. *)
Theorem C118_conflicts_outlived_partial : forall d s now srv v k ops,
  0 <= d -> now <= s -> s + 2 * d < now + 60000 -> versions srv v -> (exists o, srv k = Some o) ->
  let w := mrun false (minit now srv v [k]) ops in
  Forall (prompt d) (mstates false (minit now srv v [k]) ops) -> calmly false k s (minit now srv v [k]) ops ->
  m_pc w <> End true /\
  (s + 5 * d + 5000 < m_now w -> m_pc w = End false /\
     exists a o, In a (mstates false (minit now srv v [k]) ops) /\ m_srv a k = Some o /\ look MarkKey (o_ann o) = Some "True").
Proof.
  intros d s now srv v k ops D S1 S2 V E w F K. destruct (overcome d s now srv v k ops D S1 S2 V E F K) as [A B].
  split; [exact A|]. intros L. split; [exact (B L)|]. exact (all_marked false now srv v [k] ops V (B L) k (or_introl eq_refl)).
Qed.
Print Assumptions C118_conflicts_outlived_partial.

(** C118, refuted for reading, and for the removal of the mark altogether: after one failed read (an error, or
    the set is not there), or when the mark is to be removed after one conflict or failed update, nothing
    else can be done, however well all later requests would go: no request is made any more, the call never
    returns without an error, and it returns not before its minute is over. *)
Theorem C118_one_failure_refuted : forall rm now srv v sets ops f,
  versions srv v ->
  let w := mrun rm (minit now srv v sets) ops in let w' := mstep rm w (Go f) in
  (m_pc w = Get /\ f <> Fine) \/ (m_pc w = Get /\ exists k, m_hand w = Some k /\ m_srv w k = None) \/
  (rm = true /\ exists k c, m_pc w = Put k c /\ (f <> Fine \/ forall o, m_srv w k = Some o -> o_rv o <> o_rv c)) ->
  m_now w < m_dl w ->
  forall more, let u := mrun rm w' more in
    m_pc u <> End false /\ (m_pc u = End true -> m_dl w <= m_now u) /\ requests rm w' more = 0%nat /\
    forall g, m_srv (mstep rm u (Go g)) = m_srv u.
Proof.
  intros rm now srv v sets ops f V w w' H L more u.
  assert (LO : lost w') by exact (fails_lost rm w f H).
  assert (LU : lost u) by exact (lost_run rm more w' LO).
  assert (DL : m_dl w' = m_dl w /\ m_pc w' <> End true).
  { assert (FF : forall x h, m_dl x = m_dl w -> m_now x = m_now w -> m_dl (failed x h) = m_dl w /\ m_pc (failed x h) <> End true).
    { intros x h X1 X2. unfold failed. rewrite X1, X2. assert (Q : (m_now w <? m_dl w) = true) by (apply Z.ltb_lt, L). rewrite Q. split; [exact X1|discriminate]. }
    unfold w' in *. cbn [mstep] in *. unfold go in *. destruct (m_pc w) as [| |k c|t|e] eqn:PC.
    - destruct H as [[H _]|[[H _]|(_ & k & c & H & _)]]; discriminate H.
    - destruct (m_hand w) as [k|]; [|apply FF; reflexivity]. destruct f; try (apply FF; reflexivity). destruct (m_srv w k); [|apply FF; reflexivity].
      destruct LO as [LO _]. discriminate LO.
    - destruct H as [[H _]|[[H _]|(-> & k' & c' & H & N)]]; try discriminate H. injection H as <- <-.
      destruct (m_srv w k) as [o|] eqn:E; [|destruct f; apply FF; reflexivity].
      destruct (Nat.eqb (o_rv o) (o_rv c)) eqn:R; [|destruct f; apply FF; reflexivity].
      destruct f; try (apply FF; reflexivity). destruct N as [N|N]; [congruence|]. apply Nat.eqb_eq in R. elim (N o eq_refl R).
    - destruct H as [[H _]|[[H _]|(_ & k & c & H & _)]]; discriminate H.
    - destruct H as [[H _]|[[H _]|(_ & k & c & H & _)]]; discriminate H. }
  destruct DL as [DL NE]. split; [|split; [|split]].
  - destruct LU as [_ P]. intros Q. rewrite Q in P. exact P.
  - intros Q. rewrite <- DL. apply (lost_until rm more w' LO); [intros X; elim (NE X)|exact Q].
  - clear -LO. generalize dependent w'. induction more as [|op r IH]; intros x LO; [reflexivity|]. cbn [requests].
    rewrite (IH _ (lost_step rm x op LO)). destruct op as [d|y o|g]; try reflexivity. destruct (lost_srv rm x g LO) as [_ ->]. reflexivity.
  - intros g. exact (proj1 (lost_srv rm u g LU)).
Qed.
Print Assumptions C118_one_failure_refuted.

(* Two sets; another writer changes the first one while it is being marked. *)
Definition mk_key : Key := ("shoot", "workers-1").
Definition mk_key2 : Key := ("shoot", "workers-2").
Definition mk_srv (marked : bool) : Key -> option Ob :=
  fun k => if Key_eq_dec k mk_key then Some (mkOb ((if marked then [(MarkKey, "True")] else []) ++ [("a", "1")]) 3 7)
           else if Key_eq_dec k mk_key2 then Some (mkOb [("b", "2")] 4 8) else None.
Lemma mk_versions b : versions (mk_srv b) 9.
Proof. intros k o. unfold mk_srv. destruct (Key_eq_dec k mk_key); [intros E; injection E as <-; cbn; lia|]. destruct (Key_eq_dec k mk_key2); [intros E; injection E as <-; cbn; lia|discriminate]. Qed.
(* A round: ready, read, the other writer, the update, five seconds. *)
Definition mk_ops : list Op :=
  [Go Fine; Tick 10; Go Fine; Other mk_key (Some (mkOb [("a", "2")] 0 7)); Tick 20; Go Fine; Tick 5000; Go Fine; Tick 10; Go Fine; Tick 30; Go Fine].

Example C118_success_is_true_case :
  let w := mrun false (minit 1000 (mk_srv false) 9 [mk_key; mk_key2]) (mk_ops ++ [Go Fine; Go Fine; Go Fine]) in
  versions (mk_srv false) 9 /\ m_pc w = End false /\ m_now w = 6070 /\
  option_map o_ann (m_srv w mk_key) = Some [(MarkKey, "True"); ("a", "2")] /\ option_map o_ann (m_srv w mk_key2) = Some [(MarkKey, "True"); ("b", "2")].
Proof. split; [apply mk_versions|]. split; [vm_compute; reflexivity|]. split; [vm_compute; reflexivity|]. split; vm_compute; reflexivity. Qed.

(* Updates that are refused all the time: 13 attempts. *)
Definition mk_bad : list Op := Go Fine :: List.concat (repeat [Go Fine; Go Refused; Tick 5000; Go Fine] 13%nat).
Example C118_few_requests_case :
  requests false (minit 0 (mk_srv false) 9 [mk_key]) mk_bad = 26%nat /\
  m_pc (mrun false (minit 0 (mk_srv false) 9 [mk_key]) mk_bad) = End true /\ Forall (prompt 0) (mstates false (minit 0 (mk_srv false) 9 [mk_key]) (firstn 40%nat mk_bad)).
Proof. split; [vm_compute; reflexivity|]. split; [vm_compute; reflexivity|]. vm_compute. repeat constructor; intros E; discriminate E. Qed.

Example C118_conflicts_outlived_partial_case :
  let w0 := minit 1000 (mk_srv false) 9 [mk_key] in let ops := mk_ops ++ [Tick 400] in
  Forall (prompt 30) (mstates false w0 ops) /\ calmly false mk_key 1020 w0 ops /\ 1020 + 5 * 30 + 5000 < m_now (mrun false w0 ops) /\
  option_map o_ann (m_srv (mrun false w0 ops) mk_key) = Some [(MarkKey, "True"); ("a", "2")].
Proof.
  cbv zeta. split; [vm_compute; repeat constructor; intros E; discriminate E|]. split; [|split; vm_compute; reflexivity].
  repeat (cbn [mk_ops app calmly]; split; [vm_compute; try reflexivity; try exact Logic.I|]); try exact Logic.I; try (intros; discriminate).
Qed.

(** One conflict while the mark is removed: every other request would work, but the call fails after a minute,
    and the mark stays although the nodes have lost their taint. *)
Definition mk_wait : list Op := List.concat (repeat [Tick 5000; Go Fine; Go Fine] 13%nat).
Theorem C118_one_conflict_refuted : exists now srv v k ops,
  versions srv v /\ Forall (fun op => match op with Go f => f = Fine | _ => True end) ops /\
  (List.length (filter (fun op => match op with Other _ _ => true | _ => false end) ops) <= 1)%nat /\
  let w := mrun true (minit now srv v [k]) ops in
  m_pc w = End true /\ now + 60000 <= m_now w /\ requests true (minit now srv v [k]) ops = 2%nat /\
  exists o, m_srv w k = Some o /\ look MarkKey (o_ann o) = Some "True".
Proof.
  exists 0, (mk_srv true), 9%nat, mk_key, ([Go Fine; Go Fine; Other mk_key (Some (mkOb [("a", "2"); (MarkKey, "True")] 0 7)); Go Fine] ++ mk_wait).
  split; [apply mk_versions|]. split; [repeat constructor|]. split; [vm_compute; auto|]. split; [vm_compute; reflexivity|]. split; [vm_compute; discriminate|].
  split; [vm_compute; reflexivity|]. eexists. split; [vm_compute; reflexivity|]. reflexivity.
Qed.
Print Assumptions C118_one_conflict_refuted.
