(** How the two programs start: leader election, discovery of the API, caches, workers, health.
    Models cmd/machine-controller-manager/app/controllermanager.go 76-199, 202-285, 292-341, 364 with
    pkg/controller/controller.go 43-145, 194-231 and pkg/util/provider/app/app.go 74-196, 199-302, 307-356, 385 with
    pkg/util/provider/machinecontroller/controller.go 58-210, 272-323.
    Simplifications: building of configurations and clients is taken to succeed; the leader election of
    client-go is a lock that a replica gets and loses; the caches of client-go are a set of those that
    have been filled. *)
Require Import Coq.ZArith.ZArith Coq.Lists.List Coq.Strings.String Coq.Strings.Ascii Coq.Bool.Bool.
Import ListNotations.
Open Scope string_scope.
Open Scope list_scope.
Open Scope Z_scope.

(** The two programs: the manager of deployments and sets, and the controller of machines.
    controllermanager.go 76 and app.go 74. *)
Inductive Program := Manager | Machines.

(** A resource of the API: group, version, resource. controllermanager.go 70-72, app.go 70. *)
Record Gvr := mkGvr { g_group : string; g_version : string; g_resource : string }.
(** The three kinds. controllermanager.go 70. *)
Definition machineGVR := mkGvr "machine.sapcloud.io" "v1alpha1" "machines".
(** controllermanager.go 71. *)
Definition machineSetGVR := mkGvr "machine.sapcloud.io" "v1alpha1" "machinesets".
(** controllermanager.go 72. *)
Definition machineDeploymentGVR := mkGvr "machine.sapcloud.io" "v1alpha1" "machinedeployments".
(** Equality of resources: the key of the map at controllermanager.go 329. *)
Definition gvrEqb (a b : Gvr) : bool :=
  String.eqb (g_group a) (g_group b) && String.eqb (g_version a) (g_version b) && String.eqb (g_resource a) (g_resource b).

(** One try to reach the API server within the ten seconds: no client, or the status of /healthz.
    controllermanager.go 298-316, app.go 313-331. *)
Inductive Probe := NoClient | Status (code : Z).
(** controllermanager.go 307, app.go 322: only 200 ends the wait. *)
Definition probeOk (p : Probe) : bool := match p with NoClient => false | Status c => c =? 200 end.

(** One list that discovery returned: its group and version as text, the names in it.
    controllermanager.go 330-338, app.go 345-353. *)
Record ResList := mkRL { rl_gv : string; rl_names : list string }.

(** The parts of a text between slashes. External: strings.Split behind schema.ParseGroupVersion
    (controllermanager.go 331). *)
Fixpoint slashes (acc s : string) : list string :=
  match s with
  | EmptyString => [acc]
  | String c r => if Ascii.eqb c "/"%char then acc :: slashes "" r else slashes (acc ++ String c EmptyString) r
  end.
(** External: schema.ParseGroupVersion (apimachinery), called at controllermanager.go 331 and app.go 346:
    nothing or a single slash is the empty group and version, one part is a version of the core group,
    two are group and version, more are refused. *)
Definition parseGroupVersion (s : string) : option (string * string) :=
  if String.eqb s "" || String.eqb s "/" then Some ("", "") else
  match slashes "" s with
  | [v] => Some ("", v)
  | [g; v] => Some (g, v)
  | _ => None
  end.

(** Why a start fails. controllermanager.go 212-233, 317-334 and app.go 210-240, 332-349. *)
Inductive StartErr := Unhealthy | NoResources | BadGroupVersion | NoVersion | Unsupported.
(** What may come out. controllermanager.go 292 and app.go 307. *)
Inductive Result (A : Type) := Ok (a : A) | Err (e : StartErr).
Arguments Ok {A} _. Arguments Err {A} _.

(** The lists turned into resources. controllermanager.go 329-338, app.go 344-353. *)
Fixpoint allResources (l : list ResList) : Result (list Gvr) :=
  match l with
  | [] => Ok []
  | r :: l' =>
      match parseGroupVersion (rl_gv r) with
      | None => Err BadGroupVersion
      | Some (g, v) =>
          match allResources l' with
          | Ok rest => Ok (map (mkGvr g v) (rl_names r) ++ rest)
          | Err e => Err e
          end
      end
  end.
(** controllermanager.go 292-341, app.go 307-356. The tries of the ten seconds in order; the lists that
    discovery returned after the first good one, whether or not with an error (321-324: an error is only
    logged). *)
Definition getAvailableResources (probes : list Probe) (lists : list ResList) : Result (list Gvr) :=
  if negb (existsb probeOk probes) then Err Unhealthy
  else match lists with [] => Err NoResources | _ => allResources lists end.
(** controllermanager.go 231, app.go 238: a lookup in the map. *)
Definition available (l : list Gvr) (g : Gvr) : bool := existsb (gvrEqb g) l.

(** What the API says at the start: the tries, the lists of the control cluster, and the version of the
    target cluster: [None] when it cannot be read or parsed, else whether it is 1.21 or later.
    app.go 210-236, pkg/util/k8sutils/version.go 14-23. *)
Record Answer := mkAnswer { a_probes : list Probe; a_lists : list ResList; a_version : option bool }.

(** The checks before a controller is made: controllermanager.go 211-233 and app.go 209-240. The result
    is whether the target is 1.21 or later, which only the controller of machines asks for. *)
Definition startChecks (p : Program) (a : Answer) : Result bool :=
  match getAvailableResources (a_probes a) (a_lists a) with
  | Err e => Err e
  | Ok l =>
      match p with
      | Manager =>
          if negb (available l machineGVR) && negb (available l machineSetGVR) && negb (available l machineDeploymentGVR)
          then Err Unsupported else Ok true
      | Machines =>
          match a_version a with
          | None => Err NoVersion
          | Some ge => if negb (available l machineGVR) then Err Unsupported else Ok ge
          end
      end
  end.

(** The caches. pkg/controller/controller.go 188-191, machinecontroller/controller.go 261-269. *)
Inductive Cache := CNodes | CMachines | CSets | CDeployments | CSecrets | CPvcs | CPvs | CPdbs | CAttachments | CClasses | CPods.
(** Equality of caches: the fields of machinecontroller/controller.go 261-269. *)
Definition cacheEqb (a b : Cache) : bool :=
  match a, b with
  | CNodes, CNodes | CMachines, CMachines | CSets, CSets | CDeployments, CDeployments | CSecrets, CSecrets | CPvcs, CPvcs
  | CPvs, CPvs | CPdbs, CPdbs | CAttachments, CAttachments | CClasses, CClasses | CPods, CPods => true
  | _, _ => false
  end.
(** The caches that are waited for. pkg/controller/controller.go 207;
    machinecontroller/controller.go 288-298. *)
Definition waitedFor (p : Program) (ge121 : bool) : list Cache :=
  match p with
  | Manager => [CNodes; CMachines; CSets; CDeployments]
  | Machines =>
      if ge121 then [CSecrets; CPvcs; CPvs; CPdbs; CAttachments; CNodes; CClasses; CMachines]
      else [CSecrets; CPvcs; CPvs; CAttachments; CNodes; CClasses; CMachines]
  end.
(** pkg/util/provider/cache/cache.go 26-44: one look at all of them. *)
Definition allSynced (filled : list Cache) (l : list Cache) : bool :=
  forallb (fun c => existsb (cacheEqb c) filled) l.

(** The work queues. pkg/controller/controller.go 184-186, machinecontroller/controller.go 253-259. *)
Inductive Queue := QSets | QDeployments | QOvershoot | QSecrets | QClasses | QNodes | QMachines | QTermination | QOrphans | QApiServer.
(** Equality of queues: the fields of machinecontroller/controller.go 253-259. *)
Definition queueEqb (a b : Queue) : bool :=
  match a, b with
  | QSets, QSets | QDeployments, QDeployments | QOvershoot, QOvershoot | QSecrets, QSecrets | QClasses, QClasses
  | QNodes, QNodes | QMachines, QMachines | QTermination, QTermination | QOrphans, QOrphans | QApiServer, QApiServer => true
  | _, _ => false
  end.
(** The queues that one round of the loop starts a worker for. pkg/controller/controller.go 221-223;
    machinecontroller/controller.go 309-315. *)
Definition workersOf (p : Program) : list Queue :=
  match p with
  | Manager => [QSets; QDeployments; QOvershoot]
  | Machines => [QSecrets; QClasses; QNodes; QMachines; QTermination; QOrphans; QApiServer]
  end.
(** All rounds: none for a number that is not positive. pkg/controller/controller.go 220-224,
    machinecontroller/controller.go 308-316. *)
Definition startedWorkers (p : Program) (n : Z) : list Queue := List.concat (repeat (workersOf p) (Z.to_nat n)).

(** How far a replica has got: it waits for the lock, it may look at the API, it waits for its caches,
    it works, it has ended. controllermanager.go 129-199, app.go 125-196. *)
Inductive Phase := Electing | Checking | Waiting (ge121 : bool) | Working | Ended.

(** The settings that matter here: --leader-elect and --concurrent-syncs. Nothing is validated
    (cmd/machine-controller-manager/app/options/options.go 108-112,
    pkg/util/provider/app/options/options.go 123-127). *)
Record Conf := mkConf { c_elect : bool; c_syncs : Z }.

(** A replica: how far it is, the flag behind /healthz (pkg/handlers/health.go 13-24), the caches filled,
    the workers, and for each key taken from a queue the queue and the caches filled at that moment. *)
Record Replica := mkReplica {
  r_phase : Phase; r_health : bool; r_filled : list Cache; r_workers : list Queue; r_taken : list (Queue * list Cache) }.

(** controllermanager.go 160-163, app.go 157-160: without leader election it runs at once. The flag is
    false at first (health.go 15). *)
Definition start (cf : Conf) : Replica := mkReplica (if c_elect cf then Electing else Checking) false [] [] [].

(** What can happen to one replica (lines at each case; the whole: controllermanager.go 76-199). *)
Inductive Ev :=
| Listen                       (* the goroutine of controllermanager.go 125 has got to 364; app.go 121, 385 *)
| Elected                      (* the lock is held: controllermanager.go 192, app.go 189 *)
| Lost                         (* and lost: controllermanager.go 193-195, app.go 190-192 *)
| Asked (a : Answer)           (* the answers of the API to the checks *)
| Filled (c : Cache)           (* a cache has been filled; external *)
| Tick                         (* one look of WaitForCacheSync, cache.go 27-36 *)
| Take (q : Queue).            (* a worker takes a key, pkg/util/worker/worker.go 39 *)

(** One step of a replica. The channel [stop] is nil (controllermanager.go 130, app.go 126): waiting for
    the caches never gives up and /healthz is never set back. An error of a check ends the process
    (controllermanager.go 155, app.go 152), so does the loss of the lock. *)
Definition rstep (p : Program) (cf : Conf) (r : Replica) (e : Ev) : Replica :=
  match r_phase r with
  | Ended => r
  | ph =>
      match e with
      | Listen => mkReplica ph true (r_filled r) (r_workers r) (r_taken r)
      | Elected => match ph with Electing => mkReplica Checking (r_health r) (r_filled r) (r_workers r) (r_taken r) | _ => r end
      | Lost => match ph with
                | Electing => r
                | _ => if c_elect cf then mkReplica Ended false (r_filled r) [] (r_taken r) else r
                end
      | Asked a => match ph with
                   | Checking => match startChecks p a with
                                 | Ok ge => mkReplica (Waiting ge) (r_health r) (r_filled r) (r_workers r) (r_taken r)
                                 | Err _ => mkReplica Ended false (r_filled r) [] (r_taken r)
                                 end
                   | _ => r
                   end
      | Filled c => match ph with
                    | Waiting _ | Working => mkReplica ph (r_health r) (c :: r_filled r) (r_workers r) (r_taken r)
                    | _ => r
                    end
      | Tick => match ph with
                | Waiting ge => if allSynced (r_filled r) (waitedFor p ge)
                                then mkReplica Working (r_health r) (r_filled r) (startedWorkers p (c_syncs cf)) (r_taken r) else r
                | _ => r
                end
      | Take q => if existsb (queueEqb q) (r_workers r)
                  then mkReplica ph (r_health r) (r_filled r) (r_workers r) ((q, r_filled r) :: r_taken r) else r
      end
  end.
(** A history of one replica. controllermanager.go 76-199, app.go 74-196. *)
Definition rrun (p : Program) (cf : Conf) (l : list Ev) : Replica := fold_left (rstep p cf) l (start cf).

(** The replicas of one program and who holds the lock of that program (controllermanager.go 170-180,
    app.go 167-177: one lock per program and namespace). The lock is given only when nobody holds it; it
    is free again only once the one who held it has lost it or has ended, which is what a renew deadline below the
    lease duration is for (pkg/util/client/leaderelectionconfig/config.go 34-41). *)
Record Fleet := mkFleet { f_replicas : list Replica; f_lock : option nat }.
(** Replacement of the n-th. Not in the code: one of the replicas of controllermanager.go 76. *)
Fixpoint setNth (n : nat) (x : Replica) (l : list Replica) : list Replica :=
  match n, l with
  | _, [] => []
  | O, _ :: r => x :: r
  | S n, y :: r => y :: setNth n x r
  end.
(** What ends a replica: controllermanager.go 155, 194; app.go 152, 191. *)
Definition ended (r : Replica) : bool := match r_phase r with Ended => true | _ => false end.
(** One step of the fleet: an event at one of the replicas. controllermanager.go 186-197. *)
Definition fstep (p : Program) (cf : Conf) (f : Fleet) (i : nat) (e : Ev) : Fleet :=
  match nth_error (f_replicas f) i with
  | None => f
  | Some r =>
      match e with
      | Elected =>
          match f_lock f with
          | Some _ => f
          | None => if c_elect cf && negb (ended r) then mkFleet (setNth i (rstep p cf r e) (f_replicas f)) (Some i) else f
          end
      | Lost =>
          match f_lock f with
          | Some j => if Nat.eqb i j then mkFleet (setNth i (rstep p cf r e) (f_replicas f)) None else f
          | None => f
          end
      | _ =>
          let r' := rstep p cf r e in
          mkFleet (setNth i r' (f_replicas f))
            (match f_lock f with Some j => if Nat.eqb i j && ended r' then None else Some j | None => None end)
      end
  end.
(** A history of a fleet of [n] replicas. controllermanager.go 76-199, app.go 74-196. *)
Definition frun (p : Program) (cf : Conf) (n : nat) (l : list (nat * Ev)) : Fleet :=
  fold_left (fun f x => fstep p cf f (fst x) (snd x)) l (mkFleet (repeat (start cf) n) None).

(** pkg/util/k8sutils/helper.go 24-62: whether the target cluster has a resource in the preferred version
    of its group. [groups] are the groups with their preferred version, or an error; [lists] what the
    second call returns for a version, or an error. *)
Definition isResourceSupported (groups : option (list (string * string))) (lists : string -> option (list string)) (group resource : string) : bool :=
  match groups with
  | None => false
  | Some gs =>
      match find (fun x : string * string => String.eqb (fst x) group) gs with
      | None => false
      | Some (_, v) =>
          match lists v with
          | None => false
          | Some names => existsb (fun n => String.eqb n resource) names
          end
      end
  end.
(** machinecontroller/controller.go 195-207: the handler of volume attachments is made once, at the start,
    if the resource is found then. *)
Definition attachmentHandler (groups : option (list (string * string))) (lists : string -> option (list string)) : bool :=
  isResourceSupported groups lists "storage.k8s.io" "volumeattachments".
