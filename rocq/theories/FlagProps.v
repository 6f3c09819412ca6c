(** C120: every flag does what it says. *)
Require Import Coq.ZArith.ZArith Coq.Lists.List Coq.Strings.String Coq.Bool.Bool Coq.micromega.Lia.
From Verif Require FreezeModel.
From Verif Require Import Types StartModel FlagModel FlagSpec FlagProofs.
Import ListNotations.
Open Scope string_scope.
Open Scope list_scope.
Open Scope Z_scope.

(** C120: a flag that is given sets its setting to the value given last; every other setting has its
    default. *)
Theorem C120_sets : forall pv p args s, commandLine pv p args = Some s -> forall f, In f (flagsOf p) ->
  (absent args (f_name f) -> s (f_field f) = f_default f) /\
  (forall v, lastGiven args (f_name f) v -> pv (f_kind f) v = Some (s (f_field f))).
Proof.
  intros pv p args s H f I. destruct (parse_spec pv p args _ s H f I) as [A G]. split; [|exact G].
  intro N. rewrite (A N). apply default_of; [apply fields_once|exact I].
Qed.
Print Assumptions C120_sets.

(** C120: a command line is turned down exactly for a flag that there is not or a value that cannot be
    read. *)
Theorem C120_refused : forall pv p args, commandLine pv p args = None <->
  exists n v, In (n, v) args /\ forall f, In f (flagsOf p) -> f_name f = n -> pv (f_kind f) v = None.
Proof. intros pv p args. apply parse_none. Qed.
Print Assumptions C120_refused.

(** C120: what a flag sets arrives at the part of the program that the flag is for; for those that
    belong to leader election or profiling, if that is switched on. *)
Theorem C120_arrives : forall p s name pl v, In (name, pl) partOf -> pl <> PControl -> valueOf p s name v ->
  (forall sw, switchOf pl = Some sw -> valueOf p s sw (VBool true)) -> used p s pl = Some v.
Proof.
  intros p s name pl v I N V W. apply (reaches p s name pl v I V).
  destruct pl; try contradiction; cbn [switchOf] in *; try exact Logic.I; apply W; reflexivity.
Qed.
Print Assumptions C120_arrives.

(** C120: a part that is switched off uses nothing: no election without "leader-elect", no contention
    profiling without "profiling". *)
Theorem C120_switched_off : forall p s pl sw, pl <> PControl -> switchOf pl = Some sw ->
  valueOf p s sw (VBool false) -> used p s pl = None.
Proof.
  intros p s pl sw N W V.
  destruct pl; try contradiction; cbn [switchOf] in W; try discriminate W; injection W as <-;
    destruct p; byName V; cbn [used]; unfold on; rewrite V; reflexivity.
Qed.
Print Assumptions C120_switched_off.

Example C120_switched_off_case :
  used Manager (set (defaults managerFlags) "EnableProfiling" (VBool false)) PContention = None /\
  used Manager (set (defaults managerFlags) "EnableProfiling" (VBool true)) PContention <> None.
Proof. split; vm_compute; [reflexivity|discriminate]. Qed.

(** C120: the control cluster is the named one, the one that the program runs in, or that of the nodes. *)
Theorem C120_control : forall p s c t, valueOf p s "control-kubeconfig" (VStr c) -> valueOf p s "target-kubeconfig" t ->
  used p s PTarget = Some t /\
  (c = "" -> used p s PControl = Some t) /\ (c = "inClusterConfig" -> used p s PControl = Some (VStr "")) /\
  (c <> "" -> c <> "inClusterConfig" -> used p s PControl = Some (VStr c)).
Proof.
  intros p s c t C T. assert (E : s "ControlKubeconfig" = VStr c /\ s "TargetKubeconfig" = t).
  { destruct p; split; [byName C; exact C|byName T; exact T|byName C; exact C|byName T; exact T]. }
  destruct E as [EC ET]. cbn [used]. unfold text. rewrite EC, ET. split; [reflexivity|].
  split; [intros ->; reflexivity|]. split; [intros ->; reflexivity|]. intros N1 N2.
  apply String.eqb_neq in N1, N2. now rewrite N1, N2.
Qed.
Print Assumptions C120_control.

(** C120: and nowhere else: settings that differ in one flag only differ only in the part that the flag
    is for and in those that it switches. *)
Theorem C120_only_there : forall p s s' name, differIn name p s s' ->
  forall pl, ~ In (name, pl) partOf -> switchOf pl <> Some name -> used p s pl = used p s' pl.
Proof. exact listens. Qed.
Print Assumptions C120_only_there.

(* Reads numbers of one digit, true and false, and every text; durations in whole seconds of one digit. *)
Definition digit (v : string) : option Z :=
  match v with
  | "0" => Some 0 | "1" => Some 1 | "2" => Some 2 | "3" => Some 3 | "5" => Some 5 | "-1" => Some (-1) | _ => None
  end.
Definition reader (k : Kind) (v : string) : option Val :=
  match k with
  | KInt => option_map VInt (digit v)
  | KDur => option_map seconds (digit v)
  | KFlt => option_map (fun z => VFlt z 1) (digit v)
  | KStr | KIp => Some (VStr v)
  | KBool => if String.eqb v "true" then Some (VBool true) else if String.eqb v "false" then Some (VBool false) else None
  end.
Example C120_case :
  option_map (fun s => map (used Manager s) [PSafetyUp; PSafetyDown; PNamespace; PLockNamespace; PControl; PWorkers; PLease; PCreation])
    (commandLine reader Manager [("safety-up", "5"); ("namespace", "shoot"); ("safety-up", "3"); ("target-kubeconfig", "/t")]) =
  Some [Some (VInt 3); Some (VInt 1); Some (VStr "shoot"); Some (VStr "shoot"); Some (VStr "/t"); Some (VInt 10); Some (seconds 15); None] /\
  option_map (fun s => map (used Machines s) [PDrain; PEvict; PLease; PContention; PControl])
    (commandLine reader Machines [("machine-drain-timeout", "5"); ("leader-elect", "false"); ("control-kubeconfig", "inClusterConfig")]) =
  Some [Some (seconds 5); Some (VInt 360); None; Some (VBool false); Some (VStr "")] /\
  commandLine reader Manager [("machine-drain-timeout", "5")] = None /\ commandLine reader Manager [("safety-up", "many")] = None /\
  In ("safety-up", PSafetyUp) partOf /\ lastGiven [("safety-up", "5"); ("safety-up", "3"); ("namespace", "shoot")] "safety-up" "3".
Proof.
  split; [vm_compute; reflexivity|]. split; [vm_compute; reflexivity|]. split; [reflexivity|]. split; [reflexivity|].
  split; [unfold partOf; repeat (first [left; reflexivity|right])|].
  exists [("safety-up", "5")], [("namespace", "shoot")]. split; [reflexivity|]. intros v [X|[]]. discriminate.
Qed.

(** What C120 claims in full: there is no flag that changes nothing. *)
Definition EveryFlagActs : Prop := forall p f, In f (flagsOf p) ->
  exists s s' pl, differIn (f_name f) p s s' /\ used p s pl <> used p s' pl.

(** Exactly four flags do nothing. *)
Theorem C120_idle_exactly : forall p f, In f (flagsOf p) ->
  ((exists s s' pl, differIn (f_name f) p s s' /\ used p s pl <> used p s' pl) <-> ~ In (f_name f) idle).
Proof.
  intros p f I. split.
  - intros (s & s' & pl & D & U) J. apply U. apply (listens p s s' (f_name f) D pl).
    + intro X. unfold idle in J. cbn [In] in J. unfold partOf in X. cbn [In] in X.
      repeat match goal with H : _ \/ _ |- _ => destruct H as [H|H] end; try contradiction;
        rewrite <- J in X; injection X as X; discriminate X.
    + intro X. unfold idle in J. cbn [In] in J.
      repeat match goal with H : _ \/ _ |- _ => destruct H as [H|H] end; try contradiction;
        rewrite <- J in X; destruct pl; discriminate X.
  - intro N.
    set (s := fun g => if String.eqb g "LeaderElect" || String.eqb g "EnableProfiling" then VBool true else VStr "a").
    exists s, (set s (f_field f) (VStr "b")), (match find (fun x => String.eqb (fst x) (f_name f)) partOf with Some x => snd x | None => PPort end).
    split.
    + intros g J E. rewrite set_other; [reflexivity|]. intro C. apply E.
      now rewrite (once f_field _ (fields_once p) g f J I C).
    + destruct p; cbv [flagsOf commonFlags managerFlags machineFlags electionFlags app In] in I;
        repeat match goal with H : _ \/ _ |- _ => destruct H as [H|H] end; try contradiction; subst f;
        first [exfalso; apply N; unfold idle; cbn [In f_name]; tauto | vm_compute; discriminate].
Qed.
Print Assumptions C120_idle_exactly.

(** Finding: they are --cloud-provider, --kube-api-content-type, --controller-start-interval and, for the
    machine controller, --machine-inplace-update-timeout. *)
Theorem C120_idle_refuted : ~ EveryFlagActs.
Proof.
  intro H. assert (I : In (mkFlag "machine-inplace-update-timeout" KDur "MachineInPlaceUpdateTimeout" (minutes 20)) (flagsOf Machines)).
  { apply in_or_app. right. apply in_or_app. left. unfold machineFlags. repeat (first [left; reflexivity|right]). }
  apply (C120_idle_exactly Machines _ I) in H; [|exact I]. apply H. cbn [f_name]. unfold idle. cbn [In]. tauto.
Qed.
Print Assumptions C120_idle_refuted.

(** Finding: no value is checked beyond its form. With --concurrent-syncs=0 the program starts, and no
    queue has a worker. *)
Theorem C120_no_workers_refuted : forall pv p, pv KInt "0" = Some (VInt 0) ->
  exists s, commandLine pv p [("concurrent-syncs", "0")] = Some s /\ used p s PWorkers = Some (VInt 0) /\ startedWorkers p 0 = [].
Proof.
  intros pv p H. destruct p; cbn; rewrite H; eexists; (split; [reflexivity|]); split; reflexivity.
Qed.
Print Assumptions C120_no_workers_refuted.

Definition fzSet (f : option string) (c : bool) := FreezeModel.mkFSet "s" 3 [("a", "b")] f [("a", "b")] c false.
Definition fzDep := FreezeModel.mkFDep "d" 3 [("a", "b")] (Some (Some (IOSInt 0))) None false false.
Definition fzView (f : option string) (c : bool) := FreezeModel.mkView [fzSet f c] [fzDep] (repeat (FreezeModel.mkFM [("a", "b")] ["s"]) 3).

(** Finding: with --safety-up=0, "no excess", a deployment with maxSurge 0 is frozen as soon as it has its
    wanted size, and with the default of --safety-down it stays so as long as it has. *)
Theorem C120_frozen_at_size_refuted : forall pv, pv KInt "0" = Some (VInt 0) ->
  exists s, commandLine pv Manager [("safety-up", "0")] = Some s /\ used Manager s PSafetyUp = Some (VInt 0) /\ used Manager s PSafetyDown = Some (VInt 1) /\
    FreezeModel.check 0 1 (fzView None false) = FreezeModel.VFreeze (fzSet None false) /\
    FreezeModel.check 0 1 (fzView (Some "True") true) = FreezeModel.VNone.
Proof.
  intros pv H. unfold commandLine. cbn [parse]. cbn. rewrite H. eexists. split; [reflexivity|]. split; [reflexivity|]. split; [reflexivity|].
  split; reflexivity.
Qed.
Print Assumptions C120_frozen_at_size_refuted.

(** Finding: with a negative --safety-down the check freezes a set and unfreezes it again in turn, while
    the number of machines stays the same. *)
Theorem C120_flapping_refuted : forall pv, pv KInt "-1" = Some (VInt (-1)) -> pv KInt "0" = Some (VInt 0) ->
  exists s, commandLine pv Manager [("safety-up", "0"); ("safety-down", "-1")] = Some s /\
    used Manager s PSafetyUp = Some (VInt 0) /\ used Manager s PSafetyDown = Some (VInt (-1)) /\
    FreezeModel.check 0 (-1) (fzView None false) = FreezeModel.VFreeze (fzSet None false) /\
    FreezeModel.check 0 (-1) (fzView (Some "True") true) = FreezeModel.VUnfreeze (fzSet (Some "True") true).
Proof.
  intros pv H H0. unfold commandLine. cbn [parse]. cbn. rewrite H0, H. eexists. split; [reflexivity|]. split; [reflexivity|]. split; [reflexivity|].
  split; reflexivity.
Qed.
Print Assumptions C120_flapping_refuted.
