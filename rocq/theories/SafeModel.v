(** The API-server safety check and the freeze of the machine controller.
    Models machine_safety.go 49-151 and the test at the start of reconcileClusterMachine
    (machine.go 171-181). The store and the cache hold the status of each machine by name.
    What a reconcile writes is an input. Time is in seconds. Simplifications: writes of the
    check always fit the version read just before (it reads from the API server); the
    workers of the machine queue read the flag [frozen] when they start a reconcile. *)
Require Import Coq.ZArith.ZArith Coq.Lists.List Coq.Strings.String Coq.Bool.Bool.
From Verif Require Import QueueModel.
Import ListNotations.
Open Scope string_scope.
Open Scope list_scope.
Open Scope Z_scope.

(** The status of a machine (machine_types.go 132-163, 243-250), and whether it has a
    deletion timestamp. [x_spec] stands for everything else. *)
Record SM := mkSM {
  x_name : string; x_deleting : bool; x_phase : string; x_timeout : bool; x_since : Z;
  x_desc : string; x_state : string; x_type : string; x_optime : Z; x_spec : string }.

(** What a call to an API server returns. machine_safety.go 133-151. *)
Inductive Answer := Fine | NotFound | Broken.
(** machine_safety.go 133-151: both API servers answer, if only with "not found". *)
Definition isAPIServerUp (control target : Answer) : bool :=
  match control with
  | Broken => false
  | _ => match target with Broken => false | _ => true end
  end.

(** The controller's flag and time (options/types.go 111-116; [None] is the zero time), the
    clock, the store, the cache, the machines whose reconcile has started and not ended, the
    state of the queue of the check: how often it was put back, and whether it is scheduled,
    and the names put into the machine queue for later (98). *)
Record SW := mkSW {
  s_frozen : bool; s_down : option Z; s_now : Z; s_store : list SM; s_cache : list SM;
  s_running : list string; s_requeues : nat; s_scheduled : bool; s_later : list string }.

(** Get by name. machine_safety.go 53-129 (external: API server, lister). *)
Definition find1 (n : string) (l : list SM) : option SM := find (fun x => String.eqb n (x_name x)) l.
(** Replace by name. machine_safety.go 53-129 (external: API server). *)
Definition put (x : SM) (l : list SM) : list SM := map (fun y => if String.eqb (x_name x) (x_name y) then x else y) l.

(** machine_safety.go 78-88. *)
Definition reset (now : Z) (x : SM) : SM :=
  mkSM (x_name x) (x_deleting x) "Running" false now
    "Machine Health Timeout was reset due to APIServer being unreachable" "Successful" "HealthCheck" now (x_spec x).

(** machine_safety.go 70-99: the loop over the cached machines; [get] and [upd] say whether
    the calls for a name succeed. The result: the store, the names put into the queue, and
    whether it went through. *)
Fixpoint resetAll (now : Z) (get upd : string -> bool) (l : list SM) (store : list SM) (later : list string)
  : list SM * list string * bool :=
  match l with
  | [] => (store, later, true)
  | x :: r =>
      if String.eqb (x_phase x) "Unknown" then
        match (if get (x_name x) then find1 (x_name x) store else None) with
        | None => (store, later, false)
        | Some y => if upd (x_name x)
                    then resetAll now get upd r (put (reset now y) store) (later ++ [x_name x])
                    else (store, later, false)
        end
      else resetAll now get upd r store (later ++ [x_name x])
  end.

(** What can happen next. machine_safety.go 49-151 and machine.go 171-181, lines at each case. *)
Inductive SOp :=
| SProbe (control target : Answer) (listOk : bool) (get upd : string -> bool)  (* the check runs *)
| SBegin (n : string)          (* a worker starts the reconcile of a machine, machine.go 171-181 *)
| SWrite (x : SM)              (* a reconcile that is under way writes *)
| SEnd (n : string)            (* it ends *)
| SEnv (x : SM)                (* anybody else writes *)
| SSee                         (* the cache catches up *)
| STick (d : Z).               (* time passes *)

(** machine_safety.go 49-129: the new state and whether the check returned an error. *)
Definition reconcileAPIServer (timeout : Z) (w : SW) (control target : Answer) (listOk : bool) (get upd : string -> bool) : SW * bool :=
  let up := isAPIServerUp control target in
  if s_frozen w then
    if up then
      if listOk then
        let '(store, later, ok) := resetAll (s_now w) get upd (s_cache w) (s_store w) (s_later w) in
        if ok then (mkSW false None (s_now w) store (s_cache w) (s_running w) (s_requeues w) (s_scheduled w) later, false)
        else (mkSW true (s_down w) (s_now w) store (s_cache w) (s_running w) (s_requeues w) (s_scheduled w) later, true)
      else (w, true)
    else (w, false)
  else
    if up then (w, false)
    else
      let since := match s_down w with Some t => t | None => s_now w end in
      (mkSW (timeout <? s_now w - since) (Some since) (s_now w) (s_store w) (s_cache w) (s_running w) (s_requeues w) (s_scheduled w) (s_later w), false).

(** The check as run by its worker: without an error it schedules itself (122, 127), with one
    the worker puts it back a limited number of times (worker.go 46-64). *)
Definition probe (timeout : Z) (w : SW) (control target : Answer) (listOk : bool) (get upd : string -> bool) : SW :=
  let '(w', err) := reconcileAPIServer timeout w control target listOk get upd in
  let '(c, again) := afterRun DefaultMaxRetries (s_requeues w) err in
  mkSW (s_frozen w') (s_down w') (s_now w') (s_store w') (s_cache w') (s_running w') c (negb err || again) (s_later w').

(** One step. machine_safety.go 49-151, machine.go 171-181 and their surroundings. *)
Definition sstep (timeout : Z) (w : SW) (op : SOp) : SW :=
  match op with
  | SProbe control target listOk get upd => if s_scheduled w then probe timeout w control target listOk get upd else w
  | SBegin n =>
      match find1 n (s_cache w) with
      | None => w
      | Some x => if s_frozen w && negb (x_deleting x) then w
                  else mkSW (s_frozen w) (s_down w) (s_now w) (s_store w) (s_cache w) (n :: s_running w) (s_requeues w) (s_scheduled w) (s_later w)
      end
  | SWrite x =>
      if hasKey (x_name x) (s_running w)
      then mkSW (s_frozen w) (s_down w) (s_now w) (put x (s_store w)) (s_cache w) (s_running w) (s_requeues w) (s_scheduled w) (s_later w)
      else w
  | SEnd n => mkSW (s_frozen w) (s_down w) (s_now w) (s_store w) (s_cache w) (without n (s_running w)) (s_requeues w) (s_scheduled w) (s_later w)
  | SEnv x => mkSW (s_frozen w) (s_down w) (s_now w) (put x (s_store w)) (s_cache w) (s_running w) (s_requeues w) (s_scheduled w) (s_later w)
  | SSee => mkSW (s_frozen w) (s_down w) (s_now w) (s_store w) (s_store w) (s_running w) (s_requeues w) (s_scheduled w) (s_later w)
  | STick d => mkSW (s_frozen w) (s_down w) (s_now w + Z.abs d) (s_store w) (s_cache w) (s_running w) (s_requeues w) (s_scheduled w) (s_later w)
  end.

(** A history. machine_safety.go 49-151, any interleaving. *)
Definition srun (timeout : Z) (w : SW) (ops : list SOp) : SW := fold_left (sstep timeout) ops w.
(** A new controller (controller.go 97-98, 186). *)
Definition sinit (now : Z) (store : list SM) : SW := mkSW false None now store store [] 0 true [].
