(** The command line of the two programs: the flags, the settings that they write, and the parts of
    the program that the settings are handed to. Files, shortened in the citations below:
    "mcm options" = cmd/machine-controller-manager/app/options/options.go,
    "mc options" = pkg/util/provider/app/options/options.go,
    "election" = pkg/util/client/leaderelectionconfig/config.go,
    "mcm app" = cmd/machine-controller-manager/app/controllermanager.go,
    "mc app" = pkg/util/provider/app/app.go.
    Not modelled: the flags for logging (k8s.io/component-base/logs, external), help texts, the
    normalisation of "_" to "-" in names (external), which comes before this model. *)
Require Import Coq.ZArith.ZArith Coq.Lists.List Coq.Strings.String Coq.Bool.Bool.
From Verif Require Import StartModel.
Import ListNotations.
Open Scope string_scope.
Open Scope list_scope.
Open Scope Z_scope.

(** The values of settings; durations in nanoseconds, fractions as two numbers.
    pkg/util/provider/options/types.go 33-76. *)
Inductive Val := VInt (z : Z) | VDur (ns : Z) | VFlt (num den : Z) | VStr (s : string) | VBool (b : bool).
(** How the value of a flag is read: Int32Var, DurationVar, Float32Var, StringVar, BoolVar and
    IPVar (pkg/util/provider/options/helpers.go 39-68). mc options 85-120. *)
Inductive Kind := KInt | KDur | KFlt | KStr | KBool | KIp.
(** One call of AddFlags: name, kind, setting, default. mc options 86-112. *)
Record Flag := mkFlag { f_name : string; f_kind : Kind; f_field : string; f_default : Val }.

(** time.Second and time.Minute (external), used at mc options 63-77. *)
Definition seconds (n : Z) : Val := VDur (n * 1000000000).
(** mc options 68-77. *)
Definition minutes (n : Z) : Val := seconds (n * 60).

(** The flags that both programs have: mcm options 54-63 and 78-91, mc options 56-66 and 86-99. The
    defaults for profiling are in AddFlags (mcm options 83-84, mc options 91-92). *)
Definition commonFlags (port syncs : Z) : list Flag :=
  [mkFlag "port" KInt "Port" (VInt port); mkFlag "address" KIp "Address" (VStr "0.0.0.0");
   mkFlag "cloud-provider" KStr "CloudProvider" (VStr ""); mkFlag "concurrent-syncs" KInt "ConcurrentNodeSyncs" (VInt syncs);
   mkFlag "min-resync-period" KDur "MinResyncPeriod" (minutes (12 * 60)); mkFlag "profiling" KBool "EnableProfiling" (VBool true);
   mkFlag "contention-profiling" KBool "EnableContentionProfiling" (VBool false);
   mkFlag "target-kubeconfig" KStr "TargetKubeconfig" (VStr ""); mkFlag "control-kubeconfig" KStr "ControlKubeconfig" (VStr "");
   mkFlag "namespace" KStr "Namespace" (VStr "default");
   mkFlag "kube-api-content-type" KStr "ContentType" (VStr "application/vnd.kubernetes.protobuf");
   mkFlag "kube-api-qps" KFlt "KubeAPIQPS" (VFlt 20 1); mkFlag "kube-api-burst" KInt "KubeAPIBurst" (VInt 30);
   mkFlag "controller-start-interval" KDur "ControllerStartInterval" (seconds 0)].

(** election 33-40, 44-50, 54-78; LeaderElect also mcm options 72, mc options 80. *)
Definition electionFlags : list Flag :=
  [mkFlag "leader-elect" KBool "LeaderElect" (VBool true); mkFlag "leader-elect-lease-duration" KDur "LeaseDuration" (seconds 15);
   mkFlag "leader-elect-renew-deadline" KDur "RenewDeadline" (seconds 10); mkFlag "leader-elect-retry-period" KDur "RetryPeriod" (seconds 2);
   mkFlag "leader-elect-resource-lock" KStr "ResourceLock" (VStr "leases")].

(** mcm options 64-69 and 93-98. *)
Definition managerFlags : list Flag :=
  [mkFlag "safety-up" KInt "SafetyUp" (VInt 2); mkFlag "safety-down" KInt "SafetyDown" (VInt 1);
   mkFlag "machine-safety-overshooting-period" KDur "MachineSafetyOvershootingPeriod" (minutes 1);
   mkFlag "autoscaler-scaldown-annotation-during-rollout" KBool "AutoscalerScaleDownAnnotationDuringRollout" (VBool true)].

(** mc options 61, 67-78 and 101-113; pkg/util/provider/drain/drain.go 133, 163 (two hours in steps of
    twenty seconds). *)
Definition machineFlags : list Flag :=
  [mkFlag "machine-creation-timeout" KDur "MachineCreationTimeout" (minutes 20);
   mkFlag "machine-health-timeout" KDur "MachineHealthTimeout" (minutes 10);
   mkFlag "machine-drain-timeout" KDur "MachineDrainTimeout" (minutes 120);
   mkFlag "machine-inplace-update-timeout" KDur "MachineInPlaceUpdateTimeout" (minutes 20);
   mkFlag "machine-max-evict-retries" KInt "MaxEvictRetries" (VInt (120 * 60 / 20));
   mkFlag "machine-pv-detach-timeout" KDur "PvDetachTimeout" (minutes 2);
   mkFlag "machine-pv-reattach-timeout" KDur "PvReattachTimeout" (seconds 90);
   mkFlag "machine-safety-apiserver-statuscheck-timeout" KDur "MachineSafetyAPIServerStatusCheckTimeout" (seconds 30);
   mkFlag "machine-safety-orphan-vms-period" KDur "MachineSafetyOrphanVMsPeriod" (minutes 15);
   mkFlag "machine-safety-apiserver-statuscheck-period" KDur "MachineSafetyAPIServerStatusCheckPeriod" (minutes 1);
   mkFlag "node-conditions" KStr "NodeConditions" (VStr "KernelDeadlock,ReadonlyFilesystem,DiskPressure,NetworkUnavailable");
   mkFlag "bootstrap-token-auth-extra-groups" KStr "BootstrapTokenAuthExtraGroups" (VStr "")].

(** mcm options 48-105, mc options 49-120. *)
Definition flagsOf (p : Program) : list Flag :=
  match p with
  | Manager => commonFlags 10258 10 ++ managerFlags ++ electionFlags
  | Machines => commonFlags 10259 50 ++ machineFlags ++ electionFlags
  end.

(** The settings: the fields of the structure behind the flags. mcm options 40-45, mc options 41-46. *)
Definition Settings := string -> Val.
(** Writing one field. pflag (external); pkg/util/provider/options/helpers.go 53. *)
Definition set (s : Settings) (field : string) (v : Val) : Settings := fun g => if String.eqb g field then v else s g.
(** NewMCMServer, NewMCServer and AddFlags: mcm options 48-105, mc options 49-120. *)
Definition defaults (l : list Flag) : Settings := fold_right (fun f s => set s (f_field f) (f_default f)) (fun _ => VStr "") l.

(** InitFlags (external), controller_manager.go 45: the flags given, name and value, from left to right;
    [None]: the program prints the error and ends. [pv]: how pflag reads a value of each kind. *)
Fixpoint parse (pv : Kind -> string -> option Val) (l : list Flag) (args : list (string * string)) (s : Settings) : option Settings :=
  match args with
  | [] => Some s
  | (n, v) :: r =>
      match find (fun f => String.eqb (f_name f) n) l with
      | None => None
      | Some f => match pv (f_kind f) v with None => None | Some x => parse pv l r (set s (f_field f) x) end
      end
  end.
(** Validate finds nothing wrong: mcm options 108-112, mc options 123-127. *)
Definition commandLine (pv : Kind -> string -> option Val) (p : Program) (args : list (string * string)) : option Settings :=
  parse pv (flagsOf p) args (defaults (flagsOf p)).

(** The parts that a setting is handed to (lines at each case of [used]). mcm app 76-199. *)
Inductive Place :=
| PTarget | PControl | PQPS | PBurst | PElect | PLease | PRenew | PRetry | PLock | PLockNamespace
| PNamespace | PResync | PWorkers | PAddress | PPort | PProfiling | PContention
| PSafetyUp | PSafetyDown | POvershoot | PAnnotate
| PCreation | PHealth | PDrain | PEvict | PDetach | PReattach | PApiTimeout | POrphans | PApiPeriod | PConditions | PGroups.

(** Reading a field of type bool or string. mcm app 160, 93. *)
Definition on (s : Settings) (f : string) : bool := match s f with VBool b => b | _ => false end.
(** mcm app 93-94. *)
Definition text (s : Settings) (f : string) : string := match s f with VStr x => x | _ => "" end.

(** What each part gets; [None]: it is not there, or not used. mcm app 76-285 and 351-372, mc app 73-302
    and 366-393; more at each case. *)
Definition used (p : Program) (s : Settings) (pl : Place) : option Val :=
  match pl with
  | PTarget => Some (s "TargetKubeconfig")                          (* mcm app 86, mc app 84 *)
  | PControl =>                                                     (* mcm app 91-104, mc app 89-102 *)
      Some (if String.eqb (text s "ControlKubeconfig") "" then s "TargetKubeconfig"
            else if String.eqb (text s "ControlKubeconfig") "inClusterConfig" then VStr ""
            else s "ControlKubeconfig")
  | PQPS => Some (s "KubeAPIQPS")                                   (* mcm app 109-110, mc app 107-108 *)
  | PBurst => Some (s "KubeAPIBurst")                               (* mcm app 111-112, mc app 109-110 *)
  | PElect => Some (s "LeaderElect")                                (* mcm app 160, mc app 157 *)
  | PLease => if on s "LeaderElect" then Some (s "LeaseDuration") else None      (* mcm app 188, mc app 185 *)
  | PRenew => if on s "LeaderElect" then Some (s "RenewDeadline") else None      (* mcm app 189, mc app 186 *)
  | PRetry => if on s "LeaderElect" then Some (s "RetryPeriod") else None        (* mcm app 190, mc app 187 *)
  | PLock => if on s "LeaderElect" then Some (s "ResourceLock") else None        (* mcm app 171, mc app 168 *)
  | PLockNamespace => if on s "LeaderElect" then Some (s "Namespace") else None  (* mcm app 172, mc app 169 *)
  | PNamespace => Some (s "Namespace")                              (* mcm app 239, 246, 260; mc app 246, 253, 269 *)
  | PResync => Some (s "MinResyncPeriod")                           (* mcm app 238, 245, 252; mc app 245, 252, 259 *)
  | PWorkers => Some (s "ConcurrentNodeSyncs")                      (* mcm app 282, mc app 299 *)
  | PAddress => Some (s "Address")                                  (* mcm app 368, mc app 389 *)
  | PPort => Some (s "Port")                                        (* mcm app 368, mc app 389 *)
  | PProfiling => Some (s "EnableProfiling")                        (* mcm app 353, mc app 368 *)
  | PContention => if on s "EnableProfiling" then Some (s "EnableContentionProfiling") else None  (* mcm app 358, mc app 379 *)
  | PSafetyUp => match p with Manager => Some (s "SafetyUp") | Machines => None end      (* pkg/controller/machine_safety.go 227, 246 *)
  | PSafetyDown => match p with Manager => Some (s "SafetyDown") | Machines => None end  (* pkg/controller/machine_safety.go 229, 247 *)
  | POvershoot => match p with Manager => Some (s "MachineSafetyOvershootingPeriod") | Machines => None end  (* pkg/controller/machine_safety.go 43 *)
  | PAnnotate => match p with Manager => Some (s "AutoscalerScaleDownAnnotationDuringRollout") | Machines => None end  (* mcm app 270 *)
  | PCreation => match p with Manager => None | Machines => Some (s "MachineCreationTimeout") end  (* machine_safety.go 168, machine_util.go 1470 *)
  | PHealth => match p with Manager => None | Machines => Some (s "MachineHealthTimeout") end      (* machine_util.go 1459 *)
  | PDrain => match p with Manager => None | Machines => Some (s "MachineDrainTimeout") end        (* machine_util.go 1437 *)
  | PEvict => match p with Manager => None | Machines => Some (s "MaxEvictRetries") end            (* machine_util.go 1448 *)
  | PDetach => match p with Manager => None | Machines => Some (s "PvDetachTimeout") end           (* machine_util.go 1066 *)
  | PReattach => match p with Manager => None | Machines => Some (s "PvReattachTimeout") end       (* machine_util.go 1067 *)
  | PApiTimeout => match p with Manager => None | Machines => Some (s "MachineSafetyAPIServerStatusCheckTimeout") end  (* machine_safety.go 55 *)
  | POrphans => match p with Manager => None | Machines => Some (s "MachineSafetyOrphanVMsPeriod") end                 (* machine_safety.go 29 *)
  | PApiPeriod => match p with Manager => None | Machines => Some (s "MachineSafetyAPIServerStatusCheckPeriod") end    (* machine_safety.go 56 *)
  | PConditions => match p with Manager => None | Machines => Some (s "NodeConditions") end        (* mc app 285 *)
  | PGroups => match p with Manager => None | Machines => Some (s "BootstrapTokenAuthExtraGroups") end  (* mc app 286 *)
  end.
