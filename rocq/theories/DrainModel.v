(** Draining a node.
    Models pkg/util/provider/drain/drain.go 217-441, 443-542, 544-682, 692-922 and 1025-1200.
    External calls are inputs: for the goroutine that evicts pods with volumes, an answer for each
    attempt in the order of the attempts; for each goroutine of a pod without volumes, its own
    answers. Deadlines are the end of the list of answers that a wait gets. Simplifications:
    warnings and log output are left out; the result channel carries which pod a result is for
    (in the code only the error); attachment events are those of AttModel. *)
Require Import Coq.Lists.List Coq.Strings.String Coq.Bool.Bool Coq.Arith.PeanoNat Coq.ZArith.ZArith.
From Verif Require Import Sort AttModel.
Import ListNotations.
Open Scope string_scope.
Open Scope list_scope.
Open Scope nat_scope.

(** core/v1 Volume: whether it is an emptyDir, and the claim it refers to (drain.go 319, 443-445). *)
Record Vol := mkVol { v_emptyDir : bool; v_claim : option string }.

(** core/v1 Pod as used by drain.go; [p_owners] are kind and Controller flag of the owner
    references, [p_mirror] is the presence of the mirror annotation (311), [p_finished] a phase
    Succeeded or Failed (277), [p_prio] the pointer Spec.Priority (540). *)
Record Pod := mkPod {
  p_ns : string; p_name : string; p_uid : string; p_node : string; p_mirror : bool;
  p_owners : list (string * bool); p_finished : bool; p_vols : list Vol; p_prio : option Z }.

(** The part of Options (drain.go 57-80) that the model uses. *)
Record Opts := mkOpts {
  o_node : string; o_force : bool; o_ignoreNoController : bool; o_ignoreDaemonsets : bool;
  o_deleteLocal : bool; o_retries : Z; o_handler : bool }.

(** metav1.GetControllerOf (apimachinery, used in drain.go 271-273): the kind of the first owner
    reference that is a controller. *)
Definition getPodController (p : Pod) : option string :=
  match find (fun r => snd r) (p_owners p) with Some r => Some (fst r) | None => None end.

(** hasLocalStorage (317-325). *)
Definition hasLocalStorage (p : Pod) : bool := existsb v_emptyDir (p_vols p).

(** mirrorPodFilter (310-315): included, fatal. *)
Definition mirrorPodFilter (p : Pod) : bool * bool := (negb (p_mirror p), false).

(** localStorageFilter (327-335): included, fatal. *)
Definition localStorageFilter (o : Opts) (p : Pod) : bool * bool :=
  if negb (hasLocalStorage p) then (true, false)
  else if negb (o_deleteLocal o) then (false, true) else (true, false).

(** unreplicatedFilter (275-289): included, fatal. *)
Definition unreplicatedFilter (o : Opts) (p : Pod) : bool * bool :=
  if p_finished p then (true, false)
  else match getPodController p with
       | Some _ => (true, false)
       | None => if negb (o_ignoreNoController o) then (false, true) else (true, false)
       end.

(** daemonsetFilter (291-308): included, fatal. *)
Definition daemonsetFilter (o : Opts) (p : Pod) : bool * bool :=
  match getPodController p with
  | Some k => if String.eqb k "DaemonSet"
              then if negb (o_ignoreDaemonsets o) then (false, true) else (false, false)
              else (true, false)
  | None => (true, false)
  end.

(** The filters in the order of line 368, with the conjunction of 370 and the collection of 374. *)
Definition filters (o : Opts) (p : Pod) : bool * bool :=
  fold_left (fun acc f => let '(i, x) := f p in (fst acc && i, snd acc || x))
    [mirrorPodFilter; localStorageFilter o; unreplicatedFilter o; daemonsetFilter o] (true, false).

(** The loop 363-381: the pods chosen, and whether there is a fatal one. *)
Fixpoint choose (o : Opts) (l : list Pod) : list Pod * bool :=
  match l with
  | [] => ([], false)
  | p :: r =>
      let '(ps, bad) := choose o r in
      if negb (String.eqb (p_node p) (o_node o)) then (ps, bad)
      else let '(ok, f) := filters o p in ((if ok then p :: ps else ps), f || bad)
  end.

(** getPodsForDeletion (351-390); [cache] is what the lister returns; None: an error. *)
Definition getPodsForDeletion (o : Opts) (cache : option (list Pod)) : option (list Pod) :=
  match cache with
  | None => None
  | Some l => let '(ps, bad) := choose o l in if bad then None else Some ps
  end.

(** volIsPvc (443-445). *)
Definition volIsPvc (v : Vol) : bool := match v_claim v with Some _ => true | None => false end.

(** filterPodsWithPv (447-468): with, without. *)
Fixpoint filterPodsWithPv (pods : list Pod) : list Pod * list Pod :=
  match pods with
  | [] => ([], [])
  | p :: r => let '(w, wo) := filterPodsWithPv r in
              if existsb volIsPvc (p_vols p) then (p :: w, wo) else (w, p :: wo)
  end.

(** The order of sortPodsByPriority (540); only asked for pods that have a priority. *)
Definition prioLeb (a b : Pod) : bool :=
  match p_prio a, p_prio b with Some x, Some y => Z.leb y x | _, _ => true end.

(** sortPodsByPriority (538-542); None: a nil pointer is dereferenced (with two or more pods
    every one is compared at least once). *)
Definition sortPodsByPriority (pods : list Pod) : option (list Pod) :=
  match pods with
  | [] => Some []
  | [p] => Some [p]
  | _ => if forallb (fun p => match p_prio p with Some _ => true | None => false end) pods
         then Some (isort prioLeb pods) else None
  end.

(** getPodKey (drain/util.go 10-12). *)
Definition getPodKey (p : Pod) : string := (p_ns p ++ "/" ++ p_name p)%string.

(** Answers of the claim lister (833): not found, another error, the volume name. *)
Inductive PvcAns := PvcMissing | PvcErr | PvcVol (name : string).

(** drain.go 148: GetPvDetailsMaxRetries. *)
Definition GetPvDetailsMaxRetries : nat := 3.

(** The retry loop 832-854 for one claim, with [left] tries to go. *)
Fixpoint getClaim (left : nat) (try : nat) (ans : nat -> PvcAns) : option string :=
  match left with
  | 0 => None
  | S l => match ans try with
           | PvcMissing => None
           | PvcVol n => Some n
           | PvcErr => getClaim l (S try) ans
           end
  end.

(** getPersistentVolumeNamesForPod (823-859); [ans ns claim try]. *)
Definition getPersistentVolumeNamesForPod (ans : string -> string -> nat -> PvcAns) (p : Pod) : list string :=
  flat_map (fun v => match v_claim v with
                     | None => []
                     | Some c => match getClaim GetPvDetailsMaxRetries 0 (ans (p_ns p) c) with
                                 | Some n => [n] | None => [] end
                     end) (p_vols p).

(** Assignment to a Go map with string keys (556, 623). *)
Fixpoint mset {A} (m : list (string * A)) (k : string) (v : A) : list (string * A) :=
  match m with
  | [] => [(k, v)]
  | (k', v') :: r => if String.eqb k k' then (k, v) :: r else (k', v') :: mset r k v
  end.

(** Lookup in a Go map with string keys (770). *)
Fixpoint mget {A} (m : list (string * A)) (k : string) : option A :=
  match m with
  | [] => None
  | (k', v) :: r => if String.eqb k k' then Some v else mget r k
  end.

(** The map sharedVol of 593-608 after the volumes [vols]: seen before or not, twice or not. *)
Definition markShared (m : list (string * bool)) (vols : list string) : list (string * bool) :=
  fold_left (fun m v => match mget m v with None => mset m v false | Some _ => mset m v true end) vols m.

(** filterSharedPVs (592-626). The map is walked in any order; here in that of the list. *)
Definition filterSharedPVs (pvMap : list (string * list string)) : list (string * list string) :=
  let shared := fold_left (fun m e => markShared m (snd e)) pvMap [] in
  if existsb (fun e => snd e) shared
  then map (fun e => (fst e, filter (fun v => negb (match mget shared v with Some b => b | None => false end)) (snd e))) pvMap
  else pvMap.

(** getVolumeIDFromDriver (988-1023) for a volume name: None: an error, Some "": not a volume of
    this provider or gone. *)
Definition DriverAns := string -> option string.

(** The loop 565-582: name and ID of the volumes to watch. *)
Definition podVolumes (drv : DriverAns) (names : list string) : list (string * string) :=
  flat_map (fun n => match drv n with
                     | None => []
                     | Some id => if String.eqb id "" then [] else [(n, id)]
                     end) names.

(** getPodVolumeInfos (549-589). *)
Definition getPodVolumeInfos (ans : string -> string -> nat -> PvcAns) (drv : DriverAns) (pods : list Pod)
  : list (string * list (string * string)) :=
  let byPod := fold_left (fun m p => mset m (getPodKey p) (getPersistentVolumeNamesForPod ans p)) pods [] in
  map (fun e => (fst e, podVolumes drv (snd e))) (filterSharedPVs byPod).

(** Answers of the API server to an eviction or deletion (726-728, 1041-1043). *)
Inductive Ans := AOk | ATooMany | ANotFound | AOther.

(** The pod an eviction or deletion hits among the pods there are: the calls carry the namespace and
    the name of the pod only, no UID (398, 412-415, 420). *)
Definition hits (live : list Pod) (p : Pod) : option Pod :=
  find (fun q => String.eqb (p_ns q) (p_ns p) && String.eqb (p_name q) (p_name p)) live.

(** policy/v1 PodDisruptionBudget as used in 1194-1200. *)
Record Pdb := mkPdb { b_gen : Z; b_seen : Z; b_expected : Z; b_healthy : Z; b_allowed : Z }.

(** isMisconfiguredPdb (1194-1200). *)
Definition isMisconfiguredPdb (b : Pdb) : bool :=
  if negb (Z.eqb (b_gen b) (b_seen b)) then false
  else Z.ltb 0 (b_expected b) && Z.leb (b_expected b) (b_healthy b) && Z.eqb (b_allowed b) 0.

(** getPdbForPod (1178-1192) with the budgets that match the pod. *)
Definition getPdbForPod (bs : list Pdb) : option Pdb := match bs with [] => None | b :: _ => Some b end.

(** Answers to the Get of the node in a poll of waitForDetach (882): not found, another error, the
    attached volumes. *)
Inductive NodeAns := NGone | NErr | NVols (attached : list string).

(** Results of waitForDetach: 921 and 865 and 895; 885; 888; 876. *)
Inductive DRes := DOk | DGone | DErr | DTimeout.

(** The polls of waitForDetach (872-918); [matches] is regexp.MatchString (904), false on error. *)
Fixpoint detachLoop (matches : string -> string -> bool) (ids : list string) (polls : list NodeAns) : DRes :=
  match polls with
  | [] => DTimeout
  | NGone :: _ => DGone
  | NErr :: _ => DErr
  | NVols att :: r =>
      match att with
      | [] => DOk
      | _ => if existsb (fun id => existsb (matches id) att) ids then detachLoop matches ids r else DOk
      end
  end.

(** waitForDetach (861-922). *)
Definition waitForDetach (matches : string -> string -> bool) (node : string) (vols : list (string * string))
  (polls : list NodeAns) : DRes :=
  match vols with
  | [] => DOk
  | _ => if String.eqb node "" then DOk else detachLoop matches (map snd vols) polls
  end.

(** What is sent on the result channel: nil; the error of 740 and 1064; of 782; of 677; of 679;
    of 1053; of 1095. *)
Inductive Res := RNil | RPdb | RDetach | REvict | RDelete | RErr | RWait.

(** What one attempt of the goroutine for pods with volumes meets: whether the context is done
    (707), the answer (726-728), the budgets (735), the polls until the deadline (772), the events
    (795). *)
Record Att := mkAtt { a_done : bool; a_ans : Ans; a_pdbs : list Pdb; a_polls : list NodeAns; a_events : list VA }.

(** What happens in a goroutine, in order: a call (evict or delete) with its answer, the end of the
    wait for detachment, the end of the wait for re-attachment, the end of the wait for the pod to
    go, a result sent. drain.go 544-682, 692-922. *)
Inductive TEv :=
| TCall (evict : bool) (p : Pod) (a : Ans)
| TDetach (p : Pod) (r : DRes)
| TReattach (p : Pod) (ok : bool)
| TGone (p : Pod) (ok : bool)
| TSend (p : Pod) (r : Res).

(** What evictPodsWithPVInternal returns (700), what happened, and the number of the next attempt. *)
Record IRes := mkIRes { i_remaining : list Pod; i_fast : bool; i_trace : list TEv; i_next : nat }.

(** Adds what happened before. No counterpart: book-keeping of the trace for drain.go 692-821. *)
Definition pre (t : list TEv) (r : IRes) : IRes := mkIRes (i_remaining r) (i_fast r) (t ++ i_trace r) (i_next r).

(** evictPodsWithPVInternal (692-821). [info] is podVolumeInfoMap, [k] the number of the attempt,
    [retry] the list retryPods. A re-attachment wait ends with nil or with the timeout error (963,
    985), both of which lead to 808-817. *)
Fixpoint evictPodsWithPVInternal (o : Opts) (matches : string -> string -> bool)
  (info : list (string * list (string * string))) (env : nat -> Att) (attempt : bool)
  (pods : list Pod) (retry : list Pod) (k : nat) : IRes :=
  match pods with
  | [] => mkIRes retry false [] k
  | p :: rest =>
      let e := env k in
      if a_done e then mkIRes (retry ++ rest) true [TSend p RNil] (S k)
      else
        let go := evictPodsWithPVInternal o matches info env attempt rest in
        let c := TCall attempt p (a_ans e) in
        match a_ans e with
        | ATooMany =>
            if attempt then
              match getPdbForPod (a_pdbs e) with
              | Some b => if isMisconfiguredPdb b then pre [c; TSend p RPdb] (go retry (S k))
                          else pre [c] (go (retry ++ [p]) (S k))
              | None => pre [c] (go (retry ++ [p]) (S k))
              end
            else pre [c] (go (retry ++ [p]) (S k))
        | ANotFound => pre [c; TSend p RNil] (go retry (S k))
        | AOther => pre [c] (go (retry ++ [p]) (S k))
        | AOk =>
            let vols := match mget info (getPodKey p) with Some v => v | None => [] end in
            let d := waitForDetach matches (o_node o) vols (a_polls e) in
            match d with
            | DGone => mkIRes (retry ++ rest) true [c; TDetach p d; TSend p RNil] (S k)
            | DErr | DTimeout => pre [c; TDetach p d; TSend p RDetach] (go retry (S k))
            | DOk => pre [c; TDetach p d;
                          TReattach p (waitForReattach (o_handler o) (o_node o) (map fst vols) (a_events e));
                          TSend p RNil] (go retry (S k))
            end
        end
  end.

(** The loop 644-658, [n] rounds to go. *)
Fixpoint rounds (o : Opts) (matches : string -> string -> bool)
  (info : list (string * list (string * string))) (env : nat -> Att) (n : nat) (pods : list Pod)
  (remaining : list Pod) (k : nat) : IRes :=
  match n with
  | 0 => mkIRes remaining false [] k
  | S m =>
      let r := evictPodsWithPVInternal o matches info env true pods [] k in
      if i_fast r || match i_remaining r with [] => true | _ => false end then r
      else pre (i_trace r) (rounds o matches info env m (i_remaining r) (i_remaining r) (i_next r))
  end.

(** 635-681 of evictPodsWithPv: what happens in its goroutine, with the pods sorted. *)
Definition evictSorted (o : Opts) (matches : string -> string -> bool)
  (info : list (string * list (string * string))) (env : nat -> Att) (attempt : bool) (pods : list Pod) : list TEv :=
  let '(r, fast) :=
    if attempt then
      let r := rounds o matches info env (Z.to_nat (o_retries o)) pods [] 0 in
      if negb (i_fast r) && negb (match i_remaining r with [] => true | _ => false end)
      then (pre (i_trace r) (evictPodsWithPVInternal o matches info env false (i_remaining r) [] (i_next r)), false)
      else (r, i_fast r)
    else (evictPodsWithPVInternal o matches info env false pods [] 0, false) in
  i_trace r ++ map (fun p => TSend p (if fast then RNil else if attempt then REvict else RDelete)) (i_remaining r).

(** evictPodsWithPv (628-682); None: the panic of 540. *)
Definition evictPodsWithPv (o : Opts) (matches : string -> string -> bool)
  (ans : string -> string -> nat -> PvcAns) (drv : DriverAns) (env : nat -> Att) (attempt : bool)
  (pods : list Pod) : option (list TEv) :=
  match sortPodsByPriority pods with
  | None => None
  | Some l => Some (evictSorted o matches (getPodVolumeInfos ans drv l) env attempt l)
  end.

(** What Get of a pod returns (1103): the error if any (true: not found), and the UID of the object
    if there is one. *)
Record GetAns := mkGet { g_err : option bool; g_obj : option string }.

(** waitForDelete for one pod (1099-1121) as used in 1087-1096: true: gone; false: time-out (the
    error of PollImmediate) or the error of 1109. *)
Fixpoint waitForDelete (uid : string) (polls : list GetAns) : bool :=
  match polls with
  | [] => false
  | g :: r =>
      if (match g_err g with Some b => b | None => false end)
         || (match g_obj g with Some u => negb (String.eqb u uid) | None => false end) then true
      else match g_err g with Some _ => false | None => waitForDelete uid r end
  end.

(** What the goroutine of one pod without volumes meets: the answers and budgets per attempt, and
    the polls until the deadline of the wait (1087). *)
Record PEnv := mkPEnv { e_ans : nat -> Ans; e_pdbs : nat -> list Pdb; e_polls : list GetAns }.

(** evictPodWithoutPVInternal (1025-1097), with [fuel] rounds; None: not finished. *)
Fixpoint evictPodWithoutPVInternal (o : Opts) (e : PEnv) (p : Pod) (fuel : nat) (i : nat) (attempt : bool)
  : option (list TEv) :=
  match fuel with
  | 0 => None
  | S f =>
      let attempt := if Z.leb (o_retries o) (Z.of_nat i) then false else attempt in
      let a := e_ans e i in
      let c := TCall attempt p a in
      match a with
      | AOk => if o_force o then Some [c; TSend p RNil]
               else let ok := waitForDelete (p_uid p) (e_polls e) in
                    Some [c; TGone p ok; TSend p (if ok then RNil else RWait)]
      | ANotFound => Some [c; TSend p RNil]
      | AOther => Some [c; TSend p RErr]
      | ATooMany =>
          if negb attempt then Some [c; TSend p RErr]
          else match getPdbForPod (e_pdbs e i) with
               | Some b => if isMisconfiguredPdb b then Some [c; TSend p RPdb]
                           else option_map (cons c) (evictPodWithoutPVInternal o e p f (S i) attempt)
               | None => option_map (cons c) (evictPodWithoutPVInternal o e p f (S i) attempt)
               end
      end
  end.

(** evictPodsWithoutPv (528-536): one goroutine per pod; [fuel] bounds the rounds looked at. *)
Fixpoint evictPodsWithoutPv (o : Opts) (envs : nat -> PEnv) (fuel : nat) (attempt : bool) (pods : list Pod) (i : nat)
  : list (option (list TEv)) :=
  match pods with
  | [] => []
  | p :: r => evictPodWithoutPVInternal o (envs i) p fuel 0 attempt :: evictPodsWithoutPv o envs fuel attempt r (S i)
  end.

(** The results sent in a trace. The channel returnCh, drain.go 490-526. *)
Definition sends (t : list TEv) : list (Pod * Res) :=
  flat_map (fun x => match x with TSend p r => [(p, r)] | _ => [] end) t.

(** How evictPods ends (490-526): it waits for ever, the program panics (a nil pointer, or a send on
    the closed channel), or it returns the errors. *)
Inductive Out := Hang | Crash | Returned (errs : list Res).

(** The loop 514-525 and the deferred close (492), for the results [l] sent in this order in all. *)
Definition collect (n : nat) (l : list (Pod * Res)) : Out :=
  if Nat.ltb (List.length l) n then Hang
  else if Nat.ltb n (List.length l) then Crash
  else Returned (filter (fun r => match r with RNil => false | _ => true end) (map snd l)).

(** The goroutines of evictPods (494-512): what happens in each of them; None for one that does not
    end within [fuel] rounds; the whole is None if sorting panics. *)
Definition goroutines (o : Opts) (matches : string -> string -> bool) (ans : string -> string -> nat -> PvcAns)
  (drv : DriverAns) (env : nat -> Att) (envs : nat -> PEnv) (fuel : nat) (attempt : bool) (pods : list Pod)
  : option (list (option (list TEv))) :=
  if o_force o then Some (evictPodsWithoutPv o envs fuel attempt pods 0)
  else let '(w, wo) := filterPodsWithPv pods in
       match evictPodsWithPv o matches ans drv env attempt w with
       | None => None
       | Some t => Some (Some t :: evictPodsWithoutPv o envs fuel attempt wo 0)
       end.

(** The start of a drain (218-269, 424-441): Some pods: they are to be evicted; None: an error at
    once. [cordon] says whether the cordon succeeded (238), [synced] whether the pod cache did
    (242), [support] is what SupportEviction returns (429): None: an error, Some b: whether
    evictions are supported. *)
Definition startDrain (o : Opts) (cordon synced : bool) (cache : option (list Pod)) (support : option bool)
  : option (list Pod * bool) :=
  if negb cordon then None
  else if negb synced then None
  else match getPodsForDeletion o cache with
       | None => None
       | Some [] => Some ([], false)
       | Some ps => match support with
                    | None => None
                    | Some b => Some (ps, negb (o_force o) && b)
                    end
       end.

(** RunCordonOrUncordon (1157-1176) with desired true: whether it returns nil, and whether the node
    is unschedulable afterwards, for a failing Get, the node's current mark and the answer to the
    update. *)
Definition cordonNode (getFails : bool) (unsched : bool) (updateFails : bool) : bool * bool :=
  if getFails then (true, unsched)
  else if unsched then (true, true)
  else if updateFails then (false, false) else (true, true).

(** The retries that drainNode hands over (machinecontroller/machine_util.go 1065): the smaller of
    the configured number and the drain time-out (in seconds) divided by the retry interval of 20
    seconds (drain.go 143), cut off. *)
Definition effectiveRetries (configured timeoutSeconds : Z) : Z :=
  Z.min configured (Z.quot timeoutSeconds 20).
