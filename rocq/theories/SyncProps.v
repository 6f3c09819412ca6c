(** Properties C72 and C73: copying the MachineSet's template to its machines. *)
Require Import Coq.Arith.Arith Coq.Lists.List Coq.Bool.Bool Coq.micromega.Lia.
From Verif Require Import SyncModel SyncSpec SyncProofs.
Import ListNotations.

(** C72. Full statement: whenever a MachineSet has nothing left to do (its key is not
    queued, all events have arrived), every machine it lists has its class kind and, if
    active, its node template and configuration. Missing: calls that the API server
    refuses for another reason than a conflict are excluded, because with them the
    statement is false (next theorem); the key is not dropped after 15 errors. *)
Theorem C72_machines_follow_partial : forall n w ops, fresh n w -> Forall never_refused ops ->
  quiet n (run n w ops) ->
  forall i o, i < n -> w_srv (run n w ops) i = Some o -> follows (w_set (run n w ops)) o.
Proof. exact follow_lemma. Qed.
Print Assumptions C72_machines_follow_partial.

(** Two machines, one of them failed. The set's template changes, the first call meets a
    conflict, further reconciles run after the events; machine 1 goes and comes back
    with something else. *)
Definition syncStart : W :=
  mkW (fun i => match i with 0 => Some (mkObj 5 (mkSpc 1 1 1) true 7) | 1 => Some (mkObj 3 (mkSpc 1 1 1) false 8) | _ => None end)
      (fun i => match i with 0 => Some (mkEnt 0 (mkObj 5 (mkSpc 1 1 1) true 7)) | 1 => Some (mkEnt 1 (mkObj 3 (mkSpc 1 1 1) false 8)) | _ => None end)
      2 5 (mkSpc 1 1 1) true.
Definition syncEnv : Env :=
  mkEnv (fun k => match k with 1 => [Ext 0 (mkSpc 1 1 1) true 9] | 2 => [Deliver 0] | _ => [] end) (fun _ => AOk).
Definition calm : Env := mkEnv (fun _ => []) (fun _ => AOk).
Definition syncOps : list Op :=
  [Outside (NewSpec (mkSpc 2 3 4)); Reconcile syncEnv; Outside (Deliver 0); Outside (Deliver 1); Reconcile calm;
   Outside (Deliver 0); Reconcile calm; Outside (Deliver 0); Outside (Deliver 1); Reconcile calm; Outside (Deliver 1); Reconcile calm;
   Outside (New 1 (mkSpc 9 9 9) true 5); Outside (Gone 1); Outside (Deliver 1); Outside (New 1 (mkSpc 9 9 9) true 5); Outside (Deliver 1);
   Reconcile calm; Outside (Deliver 1); Reconcile calm; Outside (Deliver 0); Outside (Deliver 1); Reconcile calm; Outside (Deliver 1); Reconcile calm].
Example C72_case : fresh 2 syncStart /\ Forall never_refused syncOps /\ quiet 2 (run 2 syncStart syncOps) /\
  option_map ob_spc (w_srv (run 2 syncStart syncOps) 0) = Some (mkSpc 2 3 4) /\
  option_map ob_rest (w_srv (run 2 syncStart syncOps) 0) = Some 9 /\
  option_map ob_spc (w_srv (run 2 syncStart syncOps) 1) = Some (mkSpc 2 3 4).
Proof.
  assert (forall i, i < 2 -> i = 0 \/ i = 1) as Two by (intros; lia).
  split; [|split; [|split]].
  - split; [reflexivity|]. split; [|split; [|split]].
    + intros [|[|i]] c H; cbn in H; [| |discriminate]; injection H as <-; cbn; lia.
    + intros [|[|i]] c H; cbn in H; [| |discriminate]; injection H as <-; cbn; lia.
    + intros [|[|i]] c H; cbn in H; [| |discriminate]; injection H as <-; cbn; lia.
    + intros [|[|i]] c o H H'; cbn in H, H'; [| |discriminate]; injection H as <-; injection H' as <-; cbn; auto.
  - unfold syncOps. repeat constructor; discriminate.
  - split; [reflexivity|]. intros i Hi. destruct (Two i Hi) as [-> | ->]; vm_compute; reflexivity.
  - repeat split; reflexivity.
Qed.

(** C72. Failures are noticed: if all events had arrived and none came during a reconcile,
    whatever calls were refused or lost, then either the key is queued again or all
    machines follow. *)
Theorem C72_failure_noticed : forall n e w, fresh n w -> (forall k, en_ev e k = []) -> (forall i, i < n -> current w i) ->
  w_queued (reconcile n e w) = true \/
  forall i o, i < n -> w_srv (reconcile n e w) i = Some o -> follows (w_set w) o.
Proof.
  intros n e w F E C. destruct (w_queued (reconcile n e w)) eqn:Q; [left; reflexivity | right; exact (calm_reconcile n e w F E C Q)].
Qed.
Print Assumptions C72_failure_noticed.

(** Machine 0 differs in one part: with a refused call the key is queued, else the change is made. *)
Definition oneOff (a : Api) : W :=
  reconcile 2 (mkEnv (fun _ => []) (fun _ => a)) (mkW (w_srv syncStart) (w_cch syncStart) 2 5 (mkSpc 2 1 1) true).
Example C72_failure_noticed_case :
  w_queued (oneOff ARefused) = true /\ w_queued (oneOff AOk) = false /\
  option_map ob_spc (w_srv (oneOff ARefused) 0) = Some (mkSpc 1 1 1) /\ option_map ob_spc (w_srv (oneOff AOk) 0) = Some (mkSpc 2 1 1).
Proof. repeat split; vm_compute; reflexivity. Qed.

(** One refused call is enough: the change was already written into the cached machine,
    the next reconcile finds the machine up to date and does not try again. *)
Theorem C72_machines_follow_refuted : ~ (forall n w ops, fresh n w -> quiet n (run n w ops) ->
  forall i o, i < n -> w_srv (run n w ops) i = Some o -> follows (w_set (run n w ops)) o).
Proof.
  intros H.
  pose (w := mkW (fun i => match i with 0 => Some (mkObj 5 (mkSpc 1 1 1) true 7) | _ => None end)
      (fun i => match i with 0 => Some (mkEnt 0 (mkObj 5 (mkSpc 1 1 1) true 7)) | _ => None end) 1 5 (mkSpc 2 1 1) true).
  pose (ops := [Reconcile (mkEnv (fun _ => []) (fun _ => ARefused)); Reconcile calm]).
  assert (fresh 1 w) as F.
  { split; [reflexivity|]. split; [|split; [|split]].
    - intros [|i] c E; cbn in E; [|discriminate]. injection E as <-. cbn. lia.
    - intros [|i] c E; cbn in E; [|discriminate]. injection E as <-. cbn. lia.
    - intros [|i] c E; cbn in E; [|discriminate]. injection E as <-. cbn. lia.
    - intros [|i] c o E E'; cbn in E, E'; [|discriminate]. injection E as <-. injection E' as <-. cbn. auto. }
  assert (quiet 1 (run 1 w ops)) as Q.
  { split; [reflexivity|]. intros i Hi. assert (i = 0) as -> by lia. vm_compute. reflexivity. }
  specialize (H 1 w ops F Q 0 (mkObj 5 (mkSpc 1 1 1) true 7)).
  destruct H as (H & _); [lia|reflexivity|]. destruct (H eq_refl) as (X & _). vm_compute in X. discriminate.
Qed.
Print Assumptions C72_machines_follow_refuted.

(** C73. Whatever the outcomes of the calls and whatever happens around them: apart from
    the copied parts each machine is, after a reconcile, as the others left it; [flat_map …]
    are the events that happened during it. *)
Theorem C73_others_kept : forall n w ops e, fresh n w ->
  exists k, forall j, same_rest (w_srv (reconcile n e (run n w ops)) j)
    (w_srv (fold_left event (flat_map (en_ev e) (seq 0 k)) (run n w ops)) j).
Proof. exact keep_lemma. Qed.
Print Assumptions C73_others_kept.

(** The write of another client between the controller's read and its update stays. *)
Example C73_case :
  let w := run 2 syncStart [Outside (NewSpec (mkSpc 2 3 4))] in
  option_map ob_rest (w_srv w 0) = Some 7 /\
  option_map ob_rest (w_srv (reconcile 2 syncEnv w) 0) = Some 9 /\
  option_map ob_spc (w_srv (reconcile 2 calm w) 0) = Some (mkSpc 2 1 1) /\
  option_map ob_rest (w_srv (reconcile 2 calm w) 0) = Some 7.
Proof. cbv zeta. repeat split; vm_compute; reflexivity. Qed.

(** C72. The writer reports success only if the API server has taken the machine; and, with no
    events meanwhile, as it was in the cache. *)
Theorem C72_success_written : forall e fuel k w i w' k', attempts e fuel k w i = (w', k', true) ->
  exists o, w_srv w' i = Some o /\
    ((forall j, en_ev e j = []) -> exists c, w_cch w i = Some c /\ ob_spc o = ob_spc (en_obj c) /\ ob_rest o = ob_rest (en_obj c)).
Proof.
  intros e fuel. induction fuel as [|fuel IH]; intros k w i w' k' H; [discriminate|]. cbn [attempts] in H.
  remember (fold_left event (en_ev e k) w) as w1 eqn:E1. destruct (w_cch w1 i) as [c|] eqn:C; [|discriminate].
  remember (fold_left event (en_ev e (S k)) w1) as w2 eqn:E2. destruct (update w2 i (en_obj c) (en_api e k)) as (w3 & r) eqn:U.
  assert (K : w_cch w3 = w_cch w2).
  { unfold update in U. destruct (en_api e k); try (injection U as <- <-; reflexivity);
      (destruct (w_srv w2 i) as [s|]; [|injection U as <- <-; reflexivity]; destruct (negb _); injection U as <- <-; reflexivity). }
  destruct r; [|destruct (IH _ _ _ _ _ H) as (o & O1 & O2)|discriminate].
  - injection H as <- _. unfold update in U. destruct (en_api e k); [|discriminate|].
    + destruct (w_srv w2 i) as [s|]; [|discriminate]. destruct (negb _); [discriminate|]. injection U as <-. cbn [w_srv]. unfold put. rewrite Nat.eqb_refl.
      eexists. split; [reflexivity|]. intros N. exists c. split; [|split; reflexivity]. rewrite (N k) in E1. cbn in E1. subst w1. exact C.
    + destruct (w_srv w2 i) as [s|]; [|discriminate]. destruct (negb _); discriminate.
  - exists o. split; [exact O1|]. intros N. destruct (O2 N) as (c' & C1 & C2). exists c'. split; [|exact C2].
    rewrite K in C1. rewrite (N k) in E1. rewrite (N (S k)) in E2. cbn in E1, E2. subst. exact C1.
Qed.
Print Assumptions C72_success_written.

Example C72_success_written_case : exists w' k', attempts (mkEnv (fun _ => []) (fun _ => AOk)) 4 0 syncStart 0 = (w', k', true) /\
  snd (attempts (mkEnv (fun _ => []) (fun _ => AOk)) 4 0 syncStart 9) = false.
Proof. do 2 eexists. split; vm_compute; reflexivity. Qed.
