(** C30. Permits. *)
Require Import Coq.ZArith.ZArith Coq.Lists.List Coq.Strings.String Coq.Bool.Bool Coq.Arith.PeanoNat.
From Verif Require Import PermitModel PermitSpec PermitProofs.
Import ListNotations.
Open Scope string_scope.
Open Scope list_scope.
Open Scope nat_scope.

(** One hour, as in controller.go 80. *)
Definition anHour : Z := 3600%Z.

(** C30, for histories without [DeletePermits] and [Close] in which the clean-up deletes a
    key only while nobody holds, waits for or gives back a permit for it: never more than
    [n] holders. Missing: the clean-up at any other moment (see the refutations). *)
Theorem C30_at_most_partial : forall stale now workers n ops k,
  Forall (registers n) ops -> calm_run stale (pinit now workers) ops ->
  holders k (prun stale (pinit now workers) ops) <= n k.
Proof. intros. apply exclusive. apply inv_prun; auto. apply inv_pinit. Qed.
Print Assumptions C30_at_most_partial.

(** C30, the same histories: a release gives the permit back, and touches no other key.
    Partial: only these histories (C30_foreign_release_refuted). *)
Theorem C30_released_partial : forall stale now workers n ops i k ch,
  Forall (registers n) ops -> calm_run stale (pinit now workers) ops ->
  let w := prun stale (pinit now workers) ops in
  let w' := prun stale w [PRelease i; PRecv i] in
  thread w i = Holding k ch ->
  thread w' i = Idle /\ S (holders k w') = holders k w /\ S (c_len (chan w' ch)) = c_len (chan w ch) /\
  (forall k', k' <> k -> holders k' w' = holders k' w) /\ (forall c, c <> ch -> chan w' c = chan w c) /\ p_map w' = p_map w.
Proof. intros stale now workers n ops i k ch R C w w' T. apply (released n); auto. apply inv_prun; auto. apply inv_pinit. Qed.
Print Assumptions C30_released_partial.

(** C30, the same histories: whoever waits gets a permit as soon as fewer than [n] are held
    or being given back. So no permit is ever lost.
    Partial: only these histories. *)
Theorem C30_served_partial : forall stale now workers n ops i k ch,
  Forall (registers n) ops -> calm_run stale (pinit now workers) ops ->
  let w := prun stale (pinit now workers) ops in
  thread w i = Waiting k ch ->
  List.length (filter (fun t => match t with Holding k' _ | Releasing k' _ => String.eqb k k' | _ => false end) (p_threads w)) < n k ->
  thread (pstep stale w (PSend i)) i = Holding k ch.
Proof. intros stale now workers n ops i k ch R C w T H. apply (served n); auto. apply inv_prun; auto. apply inv_pinit. Qed.
Print Assumptions C30_served_partial.

(** C30, the same histories: there is no panic, and the clean-up picks only keys for which
    nobody holds a permit at that moment.
    Partial: only these histories (C30_held_cleaned_refuted). *)
Theorem C30_picks_unheld_partial : forall stale now workers n ops k,
  Forall (registers n) ops -> calm_run stale (pinit now workers) ops ->
  let w := prun stale (pinit now workers) ops in
  p_panic w = false /\ (p_jan w = None -> p_jan (pstep stale w (PCheck k)) = Some k -> holders k w = 0).
Proof.
  intros stale now workers n ops k R C w. assert (V : PInv n w) by (apply inv_prun; auto; apply inv_pinit).
  split; [exact (q_ok _ _ V) | apply (picks_unheld n); exact V].
Qed.
Print Assumptions C30_picks_unheld_partial.

(** Two keys, three goroutines, a clean-up in a quiet moment and a new registration. *)
Definition workday : list POp :=
  [PRegister "a" 1; PRegister "b" 2; PTry 0 "a"; PSend 0; PTry 1 "a"; PSend 1; PRegister "a" 1; PTry 2 "b"; PSend 2;
   PRelease 0; PRecv 0; PSend 1; PRelease 1; PRecv 1; PTick 3601%Z; PCheck "a"; PClean; PRegister "a" 1; PTry 0 "a"; PSend 0].
Definition two (k : string) : nat := if String.eqb k "b" then 2 else 1.
Example C30_case : Forall (registers two) workday /\ calm_run anHour (pinit 0 3) workday /\
  holders "a" (prun anHour (pinit 0 3) workday) = 1 /\ holders "b" (prun anHour (pinit 0 3) workday) = 1 /\
  List.length (p_chans (prun anHour (pinit 0 3) workday)) = 3.
Proof.
  split; [unfold workday; repeat (apply Forall_cons; [first [exact I | reflexivity]|]); apply Forall_nil|].
  split; [vm_compute; tauto|]. split; [|split]; vm_compute; reflexivity.
Qed.
Example C30_waiting_case : let w := prun anHour (pinit 0 3) (firstn 11 workday) in
  thread w 1 = Waiting "a" 0 /\ thread (pstep anHour w (PSend 1)) 1 = Holding "a" 0.
Proof. split; vm_compute; reflexivity. Qed.

(** C30 is false as stated. One hour after the registration the clean-up deletes the key
    while a goroutine is between loading the channel and sending on it (permits.go 89-99);
    the next registration makes a new channel, and two goroutines hold the only permit. *)
Theorem C30_two_holders_refuted : exists ops,
  Forall (registers (fun _ => 1)) ops /\ Forall (fun op => match op with PDelete _ _ | PClose => False | _ => True end) ops /\
  holders "md" (prun anHour (pinit 0 2) ops) = 2.
Proof.
  exists [PRegister "md" 1; PTick 3601%Z; PTry 0 "md"; PCheck "md"; PClean; PSend 0; PRegister "md" 1; PTry 1 "md"; PSend 1].
  split; [repeat (apply Forall_cons; [first [exact I | reflexivity]|]); apply Forall_nil|].
  split; [repeat (apply Forall_cons; [exact I|]); apply Forall_nil|]. vm_compute. reflexivity.
Qed.
Print Assumptions C30_two_holders_refuted.

(** The same happens when the permit is taken between the test of the clean-up and its
    deletion (permits.go 162-163): a held permit is invalidated. *)
Theorem C30_held_cleaned_refuted : exists ops k,
  Forall (registers (fun _ => 1)) ops /\
  let w := prun anHour (pinit 0 2) ops in
  holders k w = 1 /\ lookup k (p_map (pstep anHour w PClean)) = None /\ lookup k (p_map w) <> None /\
  holders k (prun anHour w [PClean; PRegister k 1; PTry 1 k; PSend 1]) = 2.
Proof.
  exists [PRegister "md" 1; PTick 3601%Z; PCheck "md"; PTry 0 "md"; PSend 0]. exists "md".
  split; [repeat (apply Forall_cons; [first [exact I | reflexivity]|]); apply Forall_nil|].
  split; [vm_compute; reflexivity|]. split; [vm_compute; reflexivity|]. split; [vm_compute; discriminate | vm_compute; reflexivity].
Qed.
Print Assumptions C30_held_cleaned_refuted.

(** After that the first holder releases the permit of the second (permits.go 112-123 loads
    the channel anew), so a third goroutine gets in while the second still works. *)
Theorem C30_foreign_release_refuted : exists ops,
  Forall (registers (fun _ => 1)) ops /\ holders "md" (prun anHour (pinit 0 3) ops) = 2 /\
  thread (prun anHour (pinit 0 3) ops) 0 = Idle.
Proof.
  exists [PRegister "md" 1; PTick 3601%Z; PCheck "md"; PTry 0 "md"; PSend 0; PClean; PRegister "md" 1; PTry 1 "md"; PSend 1;
          PRelease 0; PRecv 0; PTry 2 "md"; PSend 2].
  split; [repeat (apply Forall_cons; [first [exact I | reflexivity]|]); apply Forall_nil|]. split; vm_compute; reflexivity.
Qed.
Print Assumptions C30_foreign_release_refuted.

(** An entry counts as stale one hour after its registration however often it was used
    since, for the time of the last acquisition is set on a copy (permits.go 94-100, 161). *)
Theorem C30_used_is_stale_refuted : exists ops,
  let w := prun anHour (pinit 0 1) ops in
  thread (prun anHour (pinit 0 1) (removelast (removelast (removelast ops)))) 0 = Holding "md" 0 /\
  p_jan w = Some "md" /\ (p_now w = p_now (prun anHour (pinit 0 1) (removelast (removelast (removelast ops)))))%Z.
Proof.
  exists [PRegister "md" 1; PTick 3601%Z; PTry 0 "md"; PSend 0; PRelease 0; PRecv 0; PCheck "md"].
  split; [vm_compute; reflexivity|]. split; vm_compute; reflexivity.
Qed.
Print Assumptions C30_used_is_stale_refuted.

(** Closing the giver while a goroutine waits for a permit may end in a panic: the select of
    [TryPermit] can pick the send on the closed channel (permits.go 97-107, 169-177). *)
Theorem C30_close_panics_refuted : exists ops,
  Forall (registers (fun _ => 1)) ops /\ p_panic (prun anHour (pinit 0 2) ops) = true.
Proof.
  exists [PRegister "md" 1; PTry 0 "md"; PSend 0; PTry 1 "md"; PClose; PSend 1].
  split; [repeat (apply Forall_cons; [first [exact I | reflexivity]|]); apply Forall_nil|]. vm_compute. reflexivity.
Qed.
Print Assumptions C30_close_panics_refuted.

(** C30, in every history without a deletion: an entry stays in the map, with the same
    channel, for the whole stale time after its registration, whatever the clean-up does and
    whenever it does it. *)
Theorem C30_fresh_kept : forall stale now workers ops op k ch t,
  Forall undeleted ops -> undeleted op ->
  let w := prun stale (pinit now workers) ops in
  lookup k (p_map w) = Some (ch, t) -> (p_now w <= t + stale)%Z ->
  lookup k (p_map (pstep stale w op)) = Some (ch, t).
Proof. intros stale now workers ops op k ch t F U w L T. apply fresh_kept; auto. apply aged_run; [apply aged_init|exact F]. Qed.
Print Assumptions C30_fresh_kept.

Example C30_fresh_kept_case :
  let w := prun anHour (pinit 0 2) [PRegister "a" 1; PTick 3000%Z; PRegister "b" 1; PTick 601%Z; PCheck "a"; PCheck "b"] in
  p_jan w = Some "a" /\ lookup "b" (p_map (pstep anHour w PClean)) = Some (1, 3000%Z) /\ lookup "a" (p_map (pstep anHour w PClean)) = None.
Proof. vm_compute. repeat split. Qed.

(** C30: the clean-up picks a key exactly when it is stale and its channel is empty. *)
Theorem C30_picks_when : forall stale w k ch t,
  p_panic w = false -> p_jan w = None -> lookup k (p_map w) = Some (ch, t) ->
  p_jan (pstep stale w (PCheck k)) = Some k <-> (t + stale < p_now w)%Z /\ c_len (chan w ch) = 0.
Proof. exact stale_picked. Qed.
Print Assumptions C30_picks_when.

Example C30_picks_when_case :
  p_jan (prun anHour (pinit 0 2) [PRegister "a" 1; PTick 3600%Z; PCheck "a"]) = None /\
  p_jan (prun anHour (pinit 0 2) [PRegister "a" 1; PTick 3601%Z; PCheck "a"]) = Some "a" /\
  p_jan (prun anHour (pinit 0 2) [PRegister "a" 1; PTry 0 "a"; PSend 0; PTick 3601%Z; PCheck "a"]) = None.
Proof. vm_compute. repeat split. Qed.

(** C30: closing after one of the histories above does not panic, closes every registered
    channel and no other, and leaves all goroutines where they are; from then on, in every
    history, nothing is registered any more and no goroutine that was idle gets or awaits
    a permit. Closing a second time panics.
    Partial: a goroutine waiting at that moment may panic afterwards (C30_close_panics_refuted). *)
Theorem C30_closed_partial : forall stale now workers n ops later,
  Forall (registers n) ops -> calm_run stale (pinit now workers) ops ->
  let w := prun stale (pinit now workers) ops in
  let w' := pstep stale w PClose in
  let w'' := prun stale w' later in
  p_panic w' = false /\ p_threads w' = p_threads w /\
  (forall k ch t, lookup k (p_map w) = Some (ch, t) -> c_closed (chan w'' ch) = true) /\
  (forall ch, (forall k t, lookup k (p_map w) <> Some (ch, t)) -> chan w' ch = chan w ch) /\
  (forall i, thread w i = Idle -> thread w'' i = Idle) /\
  (forall k, lookup k (p_map w) = None -> lookup k (p_map w'') = None) /\
  (forall i k ch, thread w' i = Waiting k ch -> thread (pstep stale w' (PStopped i)) i = Idle) /\
  p_panic (pstep stale w' PClose) = true.
Proof.
  intros stale now workers n ops later R C w w' w''. assert (V : PInv n w) by (apply inv_prun; auto; apply inv_pinit).
  assert (N : keyed w) by (apply keyed_run; constructor).
  destruct (closed_well n stale w V N) as (A & B & M & T & D & E). fold w' in A, B, M, T, D, E.
  destruct (stopped_run stale later w' B) as (_ & F & G & H). fold w'' in F, G, H.
  split; [exact A|]. split; [exact T|]. split; [intros k ch t L; apply H; exact (D _ _ _ L)|]. split; [exact E|].
  split; [intros i I0; apply F; unfold thread; rewrite T; exact I0|]. split; [intros k L; apply G; rewrite M; exact L|]. split.
  - intros i k ch W. unfold pstep. rewrite A, W, B. unfold thread; cbn [setThread p_threads].
    rewrite nth_upd by (apply thread_lt; congruence). rewrite Nat.eqb_refl. reflexivity.
  - unfold pstep. rewrite A, B. reflexivity.
Qed.
Print Assumptions C30_closed_partial.

Example C30_closed_case :
  let w := prun anHour (pinit 0 4) (firstn 17 workday ++ [PTry 3 "b"; PClose]) in
  p_panic w = false /\ map c_closed (p_chans w) = [false; true] /\
  p_threads (prun anHour w [PTry 0 "b"; PRegister "c" 1; PTry 0 "c"; PStopped 3]) = [Idle; Idle; Holding "b" 1; Idle].
Proof. vm_compute. repeat split. Qed.

(** C30: deleting the permits of a key after one of the histories above, without another
    goroutine in between, does not panic, removes that key and closes its channel, and
    touches no other key, channel or goroutine.
    Partial: with another goroutine in between see C30_delete_twice_refuted. *)
Theorem C30_deleted_partial : forall stale now workers n ops i k ch t,
  Forall (registers n) ops -> calm_run stale (pinit now workers) ops ->
  let w := prun stale (pinit now workers) ops in
  thread w i = Idle -> i < List.length (p_threads w) -> lookup k (p_map w) = Some (ch, t) ->
  let w' := prun stale w [PDelete i k; PDeleteClose i; PRemove i] in
  p_panic w' = false /\ thread w' i = Idle /\ lookup k (p_map w') = None /\ c_closed (chan w' ch) = true /\
  (forall k', k' <> k -> lookup k' (p_map w') = lookup k' (p_map w)) /\ (forall c, c <> ch -> chan w' c = chan w c) /\
  (forall j, j <> i -> thread w' j = thread w j).
Proof. intros stale now workers n ops i k ch t R C w T L K. apply (deleted_well n stale w i k ch t); auto. apply inv_prun; auto. apply inv_pinit. Qed.
Print Assumptions C30_deleted_partial.

(** Two deletions of the same key at once end in a panic: both load the channel, both close
    it (permits.go 78-80). *)
Theorem C30_delete_twice_refuted : exists ops,
  Forall (registers (fun _ => 1)) ops /\ Forall (fun op => op <> PClose) ops /\ p_panic (prun anHour (pinit 0 2) ops) = true.
Proof.
  exists [PRegister "md" 1; PDelete 0 "md"; PDelete 1 "md"; PDeleteClose 0; PDeleteClose 1].
  split; [repeat (apply Forall_cons; [first [exact I | reflexivity]|]); apply Forall_nil|].
  split; [repeat (apply Forall_cons; [discriminate|]); apply Forall_nil|]. vm_compute. reflexivity.
Qed.
Print Assumptions C30_delete_twice_refuted.

Example C30_deleted_case :
  let w := prun anHour (pinit 0 4) (workday ++ [PDelete 3 "a"; PDeleteClose 3; PRemove 3]) in
  p_panic w = false /\ lookup "a" (p_map w) = None /\ holders "b" w = 1 /\ map c_closed (p_chans w) = [false; false; true].
Proof. vm_compute. repeat split. Qed.
