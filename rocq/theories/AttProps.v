(* C43 (volume attachment events reach the waiters) and C66 (waiting for a volume to
   be attached elsewhere). *)
Require Import List String Bool Arith Lia.
From Verif Require Import AttModel AttSpec AttProofs.
Import ListNotations.
Open Scope string_scope.
Open Scope list_scope.
Open Scope nat_scope.

(* C43: nobody ever sends on, or closes, a closed channel: from every state that can
   be reached, the only panics are an attachment without a persistent volume name,
   and a waiter that goes on receiving after it unregistered. *)
Theorem C43_panics : forall h o, Reached h -> astep h o = None ->
  (exists v, o = Event (Some v) /\ va_pv v = None /\ h_workers h <> []) \/
  (exists n, o = Receive n /\ ~ In n (h_workers h) /\ holdsC h n = []).
Proof. intros h o R. apply panics, reached_inv, R. Qed.
Print Assumptions C43_panics.

(* C43: a waiter that registers and does not unregister gets, whatever else happens,
   events that came after it registered (or were just being distributed), each at
   most once, in the order in which they came. *)
Theorem C43_in_order : forall h h1 h2 n ops, Reached h -> n = List.length (h_chans h) ->
  astep h Register = Some h1 -> ~ In (Unregister n) ops -> arun h1 ops = Some h2 ->
  exists evs, inHand h ++ arrivals h1 ops = evs ++ inHand h2 /\ Sub (took h2 n ++ holdsC h2 n) evs.
Proof.
  intros h h1 h2 n ops R -> S NU RU. destruct (register_spec h) as [h1' [A [B [C [D E]]]]].
  rewrite A in S. injection S as ->. pose proof (inv_step _ _ _ (reached_inv _ R) A) as I.
  destruct (waiter_gets ops h1 h2 _ I B NU RU) as [_ [evs [k [F [G H]]]]].
  exists evs. rewrite <- E. split; [assumption|]. rewrite G, C, D. assumption.
Qed.
Print Assumptions C43_in_order.

(* C43: if it never lags behind by more than the buffer, it gets all of them. *)
Theorem C43_all : forall h h1 h2 n ops, Reached h -> n = List.length (h_chans h) ->
  astep h Register = Some h1 -> ~ In (Unregister n) ops -> arun h1 ops = Some h2 ->
  (forall a b x, ops = a ++ b -> arun h1 a = Some x ->
     List.length (inHand h ++ arrivals h1 a) <= List.length (took x n) + 20) ->
  took h2 n ++ holdsC h2 n ++ inHand h2 = inHand h ++ arrivals h1 ops.
Proof.
  intros h h1 h2 n ops R -> S NU RU K. destruct (register_spec h) as [h1' [A [B [C [D E]]]]].
  rewrite A in S. injection S as ->. pose proof (inv_step _ _ _ (reached_inv _ R) A) as I.
  rewrite <- E in *. apply waiter_all; assumption.
Qed.
Print Assumptions C43_all.

(* C43: exactly what one distribution does to a registered waiter: the event is
   appended to its buffer, or dropped if that holds 20. *)
Theorem C43_distribution : forall h v n, Reached h -> h_hand h = Some v -> In n (h_workers h) ->
  exists h', astep h Deliver = Some h' /\ took h' n = took h n /\
    holdsC h' n = if Nat.ltb (List.length (holdsC h n)) 20 then holdsC h n ++ [v] else holdsC h n.
Proof.
  intros h v n R H W. pose proof (reached_inv _ R) as I. destruct (deliver_spec h v I H) as [cs [A [_ B]]].
  eexists. split; [exact A|]. unfold took, holdsC. cbn [h_chans]. rewrite B.
  destruct (in_dec Nat.eq_dec n (h_workers h)); [|contradiction].
  apply (i_open _ I) in W. destruct W as [c [E _]]. rewrite E. change 20 with chanSize.
  destruct (Nat.ltb (List.length (c_buf c)) chanSize); split; reflexivity.
Qed.
Print Assumptions C43_distribution.

(* C43: after it unregistered, a waiter gets nothing but what was in its buffer, and
   it never comes back. *)
Theorem C43_none_after : forall h h1 h2 n ops, Reached h -> n < List.length (h_chans h) ->
  astep h (Unregister n) = Some h1 -> arun h1 ops = Some h2 ->
  ~ In n (h_workers h2) /\ took h2 n ++ holdsC h2 n = took h n ++ holdsC h n.
Proof.
  intros h h1 h2 n ops R L S RU. pose proof (reached_inv _ R) as I.
  destruct (unregister_gone h h1 n I L S) as [G [A B]].
  destruct (gone_run ops h1 h2 n (inv_step _ _ _ I S) G RU) as [[_ C] D].
  split; [assumption|]. congruence.
Qed.
Print Assumptions C43_none_after.

(* C43: an event that comes while the waiter is registered and the informer is free
   is taken in, whoever else is registered or not. *)
Theorem C43_taken_in : forall h v n pv, Reached h -> In n (h_workers h) -> h_hand h = None -> va_pv v = Some pv ->
  exists h', astep h (Event (Some v)) = Some h' /\ h_hand h' = Some v /\ In n (h_workers h').
Proof.
  intros h v n pv R W H P. cbn [astep]. rewrite H, P. destruct (h_workers h) eqn:E; [easy|].
  eexists. repeat split. cbn [h_workers]. assumption.
Qed.
Print Assumptions C43_taken_in.

(* Two waiters, the first of which leaves between two events. *)
Definition ev (pv node : string) : VA := mkVA (Some pv) node true.
Example C43_case :
  match arun h0 [Register; Register; Event (Some (ev "a" "n1")); Deliver; Unregister 0;
                 Event (Some (ev "b" "n2")); Deliver; Receive 1; Event None; Receive 0; Unregister 0] with
  | Some h => took h 0 = [ev "a" "n1"] /\ holdsC h 0 = [] /\ took h 1 = [ev "a" "n1"] /\ holdsC h 1 = [ev "b" "n2"]
              /\ h_workers h = [1]
  | None => False
  end.
Proof. vm_compute. repeat split. Qed.

(* Finding: while anybody waits, an attachment of an inline volume (its source has no
   persistent volume name) brings the program down. *)
Theorem C43_inline_refuted : ~ (forall h v, Reached h -> h_workers h <> [] -> h_hand h = None ->
  astep h (Event (Some v)) <> None).
Proof.
  intro H. apply (H (mkHd [0] [mkChan [] [] false] None) (mkVA None "n" true)).
  - exists [Register]. reflexivity.
  - discriminate.
  - reflexivity.
  - reflexivity.
Qed.
Print Assumptions C43_inline_refuted.

(* Finding: the limit of the buffer is real: the 21st event that is not taken out
   in time is lost, the newest and not the oldest. *)
Definition many (k : nat) : list AOp := List.concat (repeat [Event (Some (ev "x" "m")); Deliver] k).
Lemma noUnregister : forall ops n, forallb (fun o => match o with Unregister _ => false | _ => true end) ops = true ->
  ~ In (Unregister n) ops.
Proof. intros ops n H I. rewrite forallb_forall in H. specialize (H _ I). discriminate. Qed.
Theorem C43_lost_refuted : ~ (forall h h1 h2 n ops, Reached h -> n = List.length (h_chans h) ->
  astep h Register = Some h1 -> ~ In (Unregister n) ops -> arun h1 ops = Some h2 ->
  took h2 n ++ holdsC h2 n ++ inHand h2 = inHand h ++ arrivals h1 ops).
Proof.
  intro H. specialize (H h0 (mkHd [0] [mkChan [] [] false] None)
    (mkHd [0] [mkChan (repeat (ev "x" "m") 20) [] false] None) 0 (many 20 ++ [Event (Some (ev "a" "n")); Deliver])).
  assert (R : Reached h0) by (exists []; reflexivity).
  specialize (H R eq_refl eq_refl).
  assert (NU : ~ In (Unregister 0) (many 20 ++ [Event (Some (ev "a" "n")); Deliver])).
  { apply noUnregister. vm_compute. reflexivity. }
  specialize (H NU eq_refl). apply (f_equal (@List.length VA)) in H. vm_compute in H. discriminate.
Qed.
Print Assumptions C43_lost_refuted.

(* C66: with a handler, the wait ends well exactly if for every volume it waits for
   one of the events it took said that the volume is attached to another node. *)
Theorem C66_exactly : forall prev pvs evs, pvs <> [] -> prev <> "" ->
  waitForReattach true prev pvs evs = true <-> forall pv, In pv pvs -> exists v, In v evs /\ Moved prev pv v.
Proof. exact waitForReattach_spec. Qed.
Print Assumptions C66_exactly.

(* C66: without a handler it always lasts until its deadline. *)
Theorem C66_no_handler : forall prev pvs evs, pvs <> [] -> prev <> "" -> waitForReattach false prev pvs evs = false.
Proof.
  intros prev pvs evs A B. unfold waitForReattach. destruct pvs; [congruence|].
  destruct (String.eqb_spec prev ""); [contradiction|reflexivity].
Qed.
Print Assumptions C66_no_handler.

(* C66: every re-attachment that is reported after the waiter registered (before the
   pod was evicted) ends the wait. Partial: as long as the waiter never lags behind by
   more than 20 events; while the volumes are being detached nobody takes events out. *)
Theorem C66_noticed_partial : forall h h1 h2 n ops prev pvs, Reached h -> n = List.length (h_chans h) ->
  astep h Register = Some h1 -> ~ In (Unregister n) ops -> arun h1 ops = Some h2 ->
  (forall a b x, ops = a ++ b -> arun h1 a = Some x ->
     List.length (inHand h ++ arrivals h1 a) <= List.length (took x n) + 20) ->
  holdsC h2 n = [] -> inHand h2 = [] ->
  (forall pv, In pv pvs -> exists v, In v (arrivals h1 ops) /\ Moved prev pv v) ->
  waitForReattach true prev pvs (took h2 n) = true.
Proof.
  intros h h1 h2 n ops prev pvs R N S NU RU K HB HH M.
  pose proof (C43_all h h1 h2 n ops R N S NU RU K) as E. rewrite HB, HH, !app_nil_r in E.
  destruct pvs as [|p l]; [reflexivity|]. destruct (string_dec prev "") as [->|P]; [reflexivity|].
  apply waitForReattach_spec; [discriminate|assumption|]. intros pv I. destruct (M pv I) as [v [V1 V2]].
  exists v. split; [|assumption]. rewrite E. apply in_or_app. now right.
Qed.
Print Assumptions C66_noticed_partial.

(* Two volumes; the events of another volume and of the old node do not count. *)
Example C66_case :
  waitForReattach true "old" ["a"; "b"] [ev "c" "new"; ev "a" "old"; ev "b" "new"; mkVA (Some "a") "new" false] = false /\
  waitForReattach true "old" ["a"; "b"] [ev "c" "new"; ev "a" "old"; ev "b" "new"; ev "a" "new"] = true.
Proof. split; reflexivity. Qed.

(* Finding: with 20 other events in the buffer, the re-attachment is reported but the
   waiter never hears of it and runs into its deadline. *)
Theorem C66_unnoticed_refuted : ~ (forall h h1 h2 n ops prev pvs, Reached h -> n = List.length (h_chans h) ->
  astep h Register = Some h1 -> ~ In (Unregister n) ops -> arun h1 ops = Some h2 ->
  holdsC h2 n = [] -> inHand h2 = [] ->
  (forall pv, In pv pvs -> exists v, In v (arrivals h1 ops) /\ Moved prev pv v) ->
  waitForReattach true prev pvs (took h2 n) = true).
Proof.
  intro H. specialize (H h0 (mkHd [0] [mkChan [] [] false] None)
    (mkHd [0] [mkChan [] (repeat (ev "x" "m") 20) false] None) 0
    (many 20 ++ [Event (Some (ev "a" "new")); Deliver] ++ repeat (Receive 0) 20) "old" ["a"]).
  assert (R : Reached h0) by (exists []; reflexivity).
  specialize (H R eq_refl eq_refl).
  assert (NU : ~ In (Unregister 0) (many 20 ++ [Event (Some (ev "a" "new")); Deliver] ++ repeat (Receive 0) 20)).
  { apply noUnregister. vm_compute. reflexivity. }
  specialize (H NU eq_refl eq_refl eq_refl).
  assert (M : forall pv, In pv ["a"] -> exists v, In v (arrivals (mkHd [0] [mkChan [] [] false] None)
     (many 20 ++ [Event (Some (ev "a" "new")); Deliver] ++ repeat (Receive 0) 20)) /\ Moved "old" pv v).
  { intros pv [<-|[]]. exists (ev "a" "new"). split; [|repeat split; discriminate].
    rewrite arrivals_app. apply in_or_app. right. vm_compute. now left. }
  specialize (H M). vm_compute in H. discriminate.
Qed.
Print Assumptions C66_unnoticed_refuted.
