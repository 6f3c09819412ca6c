(** Properties of writing finalizers: C106. *)
Require Import Coq.Lists.List Coq.Strings.String Coq.Bool.Bool Coq.Arith.PeanoNat.
From Verif Require Import Sort FupdModel FupdSpec FupdProofs.
Import ListNotations.
Open Scope string_scope.
Open Scope list_scope.

(** C106 for a machine set, whatever others do and whatever fails: the call comes to an end, and
    it says so if it did not get its way. *)
Theorem C106_set_ends : forall view s a b r,
  (forall s' e, setFinalizers toAdd view s (a :: b :: r) = (s', e) -> e <> Trying /\ (e = Done -> In our_name (f_fins view) \/ holds s')) /\
  (forall s' e, setFinalizers toRemove view s (a :: b :: r) = (s', e) -> e <> Trying /\ (e = Done -> ~ In our_name (f_fins view) \/ ~ holds s')).
Proof. exact set_ends. Qed.
Print Assumptions C106_set_ends.

(** C106 for a machine: at most one write, which is refused if the machine has changed since it
    was read. So a write that changes the stored machine changes nothing but the finalizer, and
    the removal reports success only if the finalizer is off. *)
Theorem C106_machine_locked : forall view ok o, versioned view o ->
  (forall s' e, addMachineFinalizers view ok (Some o) = (s', e) -> s' <> Some o ->
     exists o', s' = Some o' /\ In our_name (f_fins o') /\ f_del o = false /\ forall f, others o' f <-> others o f) /\
  (forall s' e, deleteMachineFinalizers view ok (Some o) = (s', e) ->
     (s' <> Some o -> view = o /\ forall f, f <> our_name -> (In f (f_fins o) <-> exists o', s' = Some o' /\ In f (f_fins o'))) /\
     (e = Done -> ~ In our_name (f_fins view) \/ ~ holds s')).
Proof. exact machine_locked. Qed.
Print Assumptions C106_machine_locked.

(** C106 for a deployment, as far as it holds: with nobody interfering and no failures one
    attempt does it, for a view that is current. Missing: views that lag, failures of the first
    read (both refuted below). *)
Theorem C106_deployment_partial : forall view a r, quiet a ->
  (f_del view = false -> exists s', depFinalizers toAdd view (Some view) (a :: r) = (s', Done) /\ holds s') /\
  (exists s', depFinalizers toRemove view (Some view) (a :: r) = (s', Done) /\ ~ holds s').
Proof. exact deployment_current. Qed.
Print Assumptions C106_deployment_partial.

Definition fu_quiet := mkAtt (fun s => s) true (fun s => s) true.
Definition fu_edit := mkAtt (fun s => s) true (fun s => option_map (fun o => mkOb ("x" :: f_fins o) (f_del o) (S (f_rv o))) s) true.
Example C106_case :
  (* a conflict, then success *)
  setFinalizers toAdd (mkOb ["b"; "a"] false 3) (Some (mkOb ["b"; "a"] false 3)) [fu_edit; fu_quiet] = (Some (mkOb ["a"; "b"; our_name] false 5), Done) /\
  (* two conflicts *)
  snd (setFinalizers toAdd (mkOb ["a"] false 3) (Some (mkOb ["a"] false 3)) [fu_edit; fu_edit]) = Failed /\
  (* the last finalizer of a machine *)
  deleteMachineFinalizers (mkOb [our_name] true 3) true (Some (mkOb [our_name] true 3)) = (None, Done) /\
  depFinalizers toAdd (mkOb [] false 3) (Some (mkOb [] false 3)) [fu_quiet] = (Some (mkOb [our_name] false 4), Done).
Proof. repeat split; reflexivity. Qed.

(** C106 fails for a deployment that has just been deleted and is kept by somebody else's
    finalizer: the API server takes no new finalizer on it, and the call repeats itself without
    end and without pause, although every call goes through and nobody interferes. *)
Theorem C106_endless_add_refuted : forall fins rv rv' n, fins <> [] -> ~ In our_name fins ->
  depFinalizers toAdd (mkOb fins false rv) (Some (mkOb fins true rv')) (repeat fu_quiet n) = (Some (mkOb fins true rv'), Trying).
Proof. intros. apply endless_add; auto. Qed.
Print Assumptions C106_endless_add_refuted.

(** Likewise for the removal, if somebody else's finalizer that the view still shows has been
    removed meanwhile: the write would bring it back. *)
Theorem C106_endless_remove_refuted : forall f rv rv' n, f <> our_name ->
  depFinalizers toRemove (mkOb [f; our_name] true rv) (Some (mkOb [our_name] true rv')) (repeat fu_quiet n) = (Some (mkOb [our_name] true rv'), Trying).
Proof. intros. apply endless_remove; auto. Qed.
Print Assumptions C106_endless_remove_refuted.

(** A machine set in the same situations gets an error after two attempts. *)
Theorem C106_set_in_the_same_case : forall f fins rv rv' r, fins <> [] -> ~ In our_name fins -> f <> our_name ->
  snd (setFinalizers toAdd (mkOb fins false rv) (Some (mkOb fins true rv')) (fu_quiet :: fu_quiet :: r)) = Failed /\
  snd (setFinalizers toRemove (mkOb [f; our_name] true rv) (Some (mkOb [our_name] true rv')) (fu_quiet :: fu_quiet :: r)) = Failed.
Proof. intros. apply set_same_case; auto. Qed.
Print Assumptions C106_set_in_the_same_case.

(** C106 fails for a deployment whose first read fails: nothing is written, no error. *)
Theorem C106_silent_refuted : forall view s r, exists a,
  depFinalizers toAdd view s (a :: r) = (s, Done).
Proof. intros. exists (mkAtt (fun s => s) false (fun s => s) true). unfold depFinalizers. destruct (toAdd view); reflexivity. Qed.
Print Assumptions C106_silent_refuted.
