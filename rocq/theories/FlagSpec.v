(** What C120 claims, said without the functions of the model. *)
Require Import Coq.ZArith.ZArith Coq.Lists.List Coq.Strings.String Coq.Bool.Bool.
From Verif Require Import StartModel FlagModel.
Import ListNotations.
Open Scope string_scope.
Open Scope list_scope.

(** The flag was not given; it was given, and this is the value that was given last. *)
Definition absent (args : list (string * string)) (name : string) : Prop := forall v, ~ In (name, v) args.
Definition lastGiven (args : list (string * string)) (name v : string) : Prop :=
  exists before after, args = before ++ (name, v) :: after /\ absent after name.

(** The part of the program that a flag is for, as its help text says. *)
Definition partOf : list (string * Place) :=
  [("port", PPort); ("address", PAddress); ("concurrent-syncs", PWorkers); ("min-resync-period", PResync); ("profiling", PProfiling);
   ("contention-profiling", PContention); ("target-kubeconfig", PTarget); ("control-kubeconfig", PControl); ("namespace", PNamespace);
   ("namespace", PLockNamespace); ("kube-api-qps", PQPS); ("kube-api-burst", PBurst); ("leader-elect", PElect);
   ("leader-elect-lease-duration", PLease); ("leader-elect-renew-deadline", PRenew); ("leader-elect-retry-period", PRetry);
   ("leader-elect-resource-lock", PLock); ("safety-up", PSafetyUp); ("safety-down", PSafetyDown);
   ("machine-safety-overshooting-period", POvershoot); ("autoscaler-scaldown-annotation-during-rollout", PAnnotate);
   ("machine-creation-timeout", PCreation); ("machine-health-timeout", PHealth); ("machine-drain-timeout", PDrain);
   ("machine-max-evict-retries", PEvict); ("machine-pv-detach-timeout", PDetach); ("machine-pv-reattach-timeout", PReattach);
   ("machine-safety-apiserver-statuscheck-timeout", PApiTimeout); ("machine-safety-orphan-vms-period", POrphans);
   ("machine-safety-apiserver-statuscheck-period", PApiPeriod); ("node-conditions", PConditions);
   ("bootstrap-token-auth-extra-groups", PGroups)].

(** The flag, if any, that switches a part on; for the control cluster: that replaces the value. *)
Definition switchOf (pl : Place) : option string :=
  match pl with
  | PLease | PRenew | PRetry | PLock | PLockNamespace => Some "leader-elect"
  | PContention => Some "profiling"
  | PControl => Some "target-kubeconfig"
  | _ => None
  end.

(** The value of a setting by the name of its flag. *)
Definition valueOf (p : Program) (s : Settings) (name : string) (v : Val) : Prop :=
  exists f, In f (flagsOf p) /\ f_name f = name /\ s (f_field f) = v.

(** Two settings that differ in nothing but what one flag sets. *)
Definition differIn (name : string) (p : Program) (s s' : Settings) : Prop :=
  forall f, In f (flagsOf p) -> f_name f <> name -> s (f_field f) = s' (f_field f).

(** The flags that nothing listens to. *)
Definition idle : list string := ["cloud-provider"; "kube-api-content-type"; "controller-start-interval"; "machine-inplace-update-timeout"].
