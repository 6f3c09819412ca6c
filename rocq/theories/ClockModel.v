(** The time a drain takes.
    Models pkg/util/provider/drain/drain.go 143-155, 218-246, 470-476, 490-526, 628-665, 692-821,
    861-922, 937-986, 1025-1121, with a clock in whole seconds.
    Simplified: calls take no time, only sleeps and waits do; what the API server and the node answer
    is a function of the time of the call; a call made when the context is done fails, as client-go
    promises; the listers answer at once (the sleeps 848 and 999 are left out: a lister that reads a
    cache only fails with "not found"). The results and the order of what is sent are in
    [DrainModel]. *)
Require Import Coq.Lists.List Coq.Arith.PeanoNat Coq.Bool.Bool.
Require Import Verif.DrainModel.
Import ListNotations.

(** drain.go 143: PodEvictionRetryInterval. *)
Definition retryInterval : nat := 20.
(** drain.go 140: Interval. *)
Definition pollInterval : nat := 5.
(** drain.go 151: VolumeDetachPollInterval. *)
Definition detachInterval : nat := 5.
(** drain.go 1086: bufferPeriod. *)
Definition bufferPeriod : nat := 30.

(** The limits of a drain (drain.go 57-80): Timeout, PvDetachTimeout, PvReattachTimeout,
    MaxEvictRetries, ForceDeletePods. *)
Record Limits := mkLimits {
  l_timeout : nat; l_detach : nat; l_reattach : nat; l_retries : nat; l_force : bool }.

(** What a Get of the pod says (1103-1113): gone (or another pod of that name), still there, or an
    error. *)
Inductive Seen := SGone | SThere | SErr.

(** What a Get of the node says (882-911): no node, an error, a volume of the pod is still attached,
    none is. *)
Inductive NodeSeen := NNone | NBad | NHolds | NFree.

(** A pod and what is met when it is drained, by time: the answer to an eviction or deletion, whether
    its budget is misconfigured (735-744, 1060-1068), what a Get of it says, whether it has volumes
    to wait for (862), what a Get of the node says, and when its volumes are attached elsewhere if
    one begins to wait at a time (951-981). *)
Record TPod := mkTPod {
  t_grace : option nat; t_ans : nat -> Ans; t_broken : nat -> bool; t_seen : nat -> Seen;
  t_vols : bool; t_node : nat -> NodeSeen; t_back : nat -> option nat }.

(** getTerminationGracePeriod (470-476). *)
Definition gracePeriod (p : TPod) : nat := match t_grace p with Some g => g | None => 0 end.

(** A call with the context of the drain (719-729, 1040-1044): it fails from the deadline on. *)
Definition call (dl : nat) (p : TPod) (t : nat) : Ans := if dl <=? t then AOther else t_ans p t.

(** A Get of the pod with the context of the drain (getPodFn, 432-434). *)
Definition look (dl : nat) (p : TPod) (t : nat) : Seen := if dl <=? t then SErr else t_seen p t.

(** A call that was made: when, whether it was an eviction, the answer. 719-729, 1040-1044. *)
Record Call := mkCall { c_at : nat; c_evict : bool; c_ans : Ans }.

(** wait.PollImmediate of waitForDelete (1100-1119): looks at once, every five seconds and when the
    time is up; when it ends and whether the pod was gone. *)
Fixpoint waitForDelete (dl : nat) (p : TPod) (until : nat) (n : nat) (t : nat) : nat * bool :=
  match look dl p t with
  | SGone => (t, true)
  | SErr => (t, false)
  | SThere =>
      match n with
      | 0 => (t, false)
      | S m => waitForDelete dl p until m (Nat.min (t + pollInterval) until)
      end
  end.

(** 1078-1087: how long the pod is waited for, at most. *)
Definition patience (l : Limits) (p : TPod) : nat := Nat.min (gracePeriod p) (l_timeout l) + bufferPeriod.

(** 1078-1096, begun at [t]. *)
Definition waitGone (l : Limits) (dl : nat) (p : TPod) (t : nat) : nat * bool :=
  waitForDelete dl p (t + patience l p) ((patience l p + (pollInterval - 1)) / pollInterval) t.

(** What became of one pod without volumes: the calls made, the time of the end, whether nil was
    sent. 1025-1097. *)
Record Alone := mkAlone { d_calls : list Call; d_end : nat; d_ok : bool }.

(** evictPodWithoutPVInternal (1025-1097) with [left] evictions to go (0: the pod is deleted, 1036),
    at time [t]. *)
Fixpoint alone (l : Limits) (dl : nat) (p : TPod) (left : nat) (t : nat) : Alone :=
  let c := mkCall t (0 <? left) (call dl p t) in
  match call dl p t with
  | AOk =>
      if l_force l then mkAlone [c] t true
      else mkAlone [c] (fst (waitGone l dl p t)) (snd (waitGone l dl p t))
  | ANotFound => mkAlone [c] t true
  | AOther => mkAlone [c] t false
  | ATooMany =>
      match left with
      | 0 => mkAlone [c] t false
      | S k =>
          if t_broken p t then mkAlone [c] t false
          else let r := alone l dl p k (t + retryInterval) in mkAlone (c :: d_calls r) (d_end r) (d_ok r)
      end
  end.

(** The polls of waitForDetach (872-918) until [limit]; [n] is at least the time left. *)
Fixpoint detachLoop (p : TPod) (limit : nat) (n : nat) (t : nat) : nat * DRes :=
  if limit <=? t then (t, DTimeout)
  else
    match t_node p t with
    | NNone => (t, DGone)
    | NBad => (t, DErr)
    | NFree => (t, DOk)
    | NHolds => match n with 0 => (t, DTimeout) | S m => detachLoop p limit m (t + detachInterval) end
    end.

(** 771-773 and waitForDetach (861-922), begun at [t]. *)
Definition waitDetach (l : Limits) (dl : nat) (p : TPod) (t : nat) : nat * DRes :=
  if t_vols p then
    let limit := Nat.min dl (t + (gracePeriod p + l_detach l)) in detachLoop p limit (limit - t) t
  else (t, DOk).

(** 794-796 and waitForReattach (937-986), begun at [t]: when it ends. *)
Definition waitReattach (l : Limits) (dl : nat) (p : TPod) (t : nat) : nat :=
  if t_vols p then
    let limit := Nat.max t (Nat.min dl (t + l_reattach l)) in
    match t_back p t with Some u => Nat.min (Nat.max t u) limit | None => limit end
  else t.

(** What evictPodsWithPVInternal returns (700), the calls made, and the time. *)
Record Pass := mkPass { s_left : list TPod; s_fast : bool; s_calls : list Call; s_end : nat }.

(** Adds a call made before. No counterpart: book-keeping for 692-821. *)
Definition before (c : Call) (r : Pass) : Pass := mkPass (s_left r) (s_fast r) (c :: s_calls r) (s_end r).

(** evictPodsWithPVInternal (692-821), at time [t]; [retry] is retryPods. *)
Fixpoint pass (l : Limits) (dl : nat) (attempt : bool) (pods retry : list TPod) (t : nat) : Pass :=
  match pods with
  | [] => mkPass retry false [] t
  | p :: rest =>
      if dl <=? t then mkPass (retry ++ rest) true [] t
      else
        let c := mkCall t attempt (call dl p t) in
        match call dl p t with
        | ATooMany =>
            if attempt && t_broken p t then before c (pass l dl attempt rest retry t)
            else before c (pass l dl attempt rest (retry ++ [p]) t)
        | ANotFound => before c (pass l dl attempt rest retry t)
        | AOther => before c (pass l dl attempt rest (retry ++ [p]) t)
        | AOk =>
            let '(u, d) := waitDetach l dl p t in
            match d with
            | DGone => mkPass (retry ++ rest) true [c] u
            | DErr | DTimeout => before c (pass l dl attempt rest retry u)
            | DOk => before c (pass l dl attempt rest retry (waitReattach l dl p u))
            end
        end
  end.

(** Nothing left to do. 646: len(remainingPods) == 0. *)
Definition none (pods : list TPod) : bool := match pods with [] => true | _ => false end.

(** The loop 644-658 with [n] rounds to go. *)
Fixpoint rounds (l : Limits) (dl : nat) (n : nat) (pods remaining : list TPod) (t : nat) : Pass :=
  match n with
  | 0 => mkPass remaining false [] t
  | S m =>
      let r := pass l dl true pods [] t in
      if s_fast r || none (s_left r) then r
      else
        let q := rounds l dl m (s_left r) (s_left r) (s_end r + retryInterval) in
        mkPass (s_left q) (s_fast q) (s_calls r ++ s_calls q) (s_end q)
  end.

(** evictPodsWithPv (628-682), begun at [t]; the pods are sorted already. *)
Definition together (l : Limits) (dl : nat) (attempt : bool) (pods : list TPod) (t : nat) : Pass :=
  if attempt then
    let r := rounds l dl (l_retries l) pods [] t in
    if negb (s_fast r) && negb (none (s_left r)) then
      let q := pass l dl false (s_left r) [] (s_end r) in
      mkPass (s_left q) (s_fast r) (s_calls r ++ s_calls q) (s_end q)
    else r
  else pass l dl false pods [] t.

(** The time when the last of the pods without volumes is done (528-536, 516-524). *)
Fixpoint lastAlone (l : Limits) (dl : nat) (left : nat) (pods : list TPod) (t : nat) : nat :=
  match pods with
  | [] => t
  | p :: rest => Nat.max (d_end (alone l dl p left t)) (lastAlone l dl left rest t)
  end.

(** evictPods (490-526), begun at [t]: when it returns. [support]: the server knows evictions (436);
    [a] and [b] are the pods without and with volumes (503). *)
Definition evictPods (l : Limits) (dl : nat) (support : bool) (a b : list TPod) (t : nat) : nat :=
  let attempt := negb (l_force l) && support in
  let left := if attempt then l_retries l else 0 in
  if l_force l then lastAlone l dl left (a ++ b) t
  else Nat.max (lastAlone l dl left a t) (s_end (together l dl attempt b t)).

(** RunDrain (218-246) begun at [t]; [prep] is the time that the cordon (238) and the wait for the
    pod cache (242) take. *)
Definition runDrain (l : Limits) (support : bool) (a b : list TPod) (prep : nat) (t : nat) : nat :=
  evictPods l (t + l_timeout l) support a b (t + prep).

(** One call of drainNode with a drain (machinecontroller/machine_util.go 1050-1186): the time since
    the last one ended, whether the node has not been ready or its disk read-only for more than five
    minutes (1093-1103), whether the label "force-deletion" is set (1069), and what the drain meets. *)
Record Try := mkTry {
  y_gap : nat; y_sick : bool; y_label : bool; y_support : bool; y_a : list TPod; y_b : list TPod; y_prep : nat }.

(** The limits that drainNode hands over at time [t] (1065-1068, 1093-1123, 1157-1171) for a machine
    deleted at [deleted]; HasTimeOutOccurred is pkg/util/time/time.go 15-19. *)
Definition passLimits (l : Limits) (y : Try) (deleted t : nat) : Limits :=
  if y_label y || (deleted + l_timeout l <? t)
  then mkLimits 60 (l_detach l) (l_reattach l) 1 true
  else mkLimits (l_timeout l) (l_detach l) (l_reattach l) (l_retries l) (y_sick y).

(** A drain that took place: when it began, with which limits, when it ended. machine_util.go
    1157-1186. *)
Record Took := mkTook { k_begin : nat; k_limits : Limits; k_end : nat }.

(** The drains of a machine one after the other; the queue gives a machine to one worker at a time
    (machine_util.go 1050-1230). *)
Fixpoint drains (l : Limits) (deleted : nat) (tries : list Try) (t : nat) : list Took :=
  match tries with
  | [] => []
  | y :: rest =>
      let b := t + y_gap y in
      let k := passLimits l y deleted b in
      let e := runDrain k (y_support y) (y_a y) (y_b y) (y_prep y) b in
      mkTook b k e :: drains l deleted rest e
  end.
