(** How an adopted MachineSet and its machines get the label with the hash of the template.
    Models pkg/controller/deployment_sync.go 136-223, machineset_util.go 48-75, deployment_util.go
    898-945, machineset.go 848-874, deployment.go 378-410 and pkg/util/labels/labels.go 61-72,
    116-129.
    Simplifications: the lister and the API server are inputs, asked in order; selectors have
    matchLabels only (expressions are never touched by this code); the hash is an input (the
    decimal text of ComputeHash, see TmplModel). *)
Require Import Coq.ZArith.ZArith Coq.Lists.List Coq.Strings.String Coq.Bool.Bool.
From Verif Require Import MetaModel TmplModel.
Import ListNotations.
Open Scope string_scope.
Open Scope list_scope.
Open Scope Z_scope.

(** What is read and written of a MachineSet: spec.selector.matchLabels ([None]: nil selector),
    labels, template labels, replicas, generation, observedGeneration, fullyLabeledReplicas.
    deployment_sync.go 160-223. *)
Record HSet := mkHS { hs_sel : option Map; hs_labels : Map; hs_tmpl : Map; hs_replicas : Z; hs_gen : Z; hs_obs : Z; hs_full : Z }.

(** What is read and written of a machine; deployment_util.go 922-945. [hm_owner]: the UID of
    its controller. *)
Record HMach := mkHM { hm_name : string; hm_phase : string; hm_owner : option string; hm_labels : Map }.

(** IsMachineActive, pkg/util/provider/machineutils/utils.go 108-111. *)
Definition activeMach (m : HMach) : bool := negb (String.eqb (hm_phase m) "Failed") && negb (String.eqb (hm_phase m) "Terminating").

(** labels.SelectorFromSet and Matches (external; deployment.go 384-388). *)
Definition selects (sel labels : Map) : bool := forallb (fun '(k, v) => match get k labels with Some w => String.eqb v w | None => false end) sel.

(** The machines of a set as the deployment sees them, deployment.go 382-409: those matching the
    selector of the deployment and controlled by the set. *)
Definition machinesOf (dsel : Map) (uid : string) (all : list HMach) : list HMach :=
  filter (fun m => match hm_owner m with Some u => String.eqb u uid | None => false end) (filter (fun m => selects dsel (hm_labels m)) all).

(** What the API server answers to an update: stored (with the generation and status the
    returned object has), a conflict, another error. machineset_util.go 62, machineset.go 862. *)
Inductive Upd := UOk (gen obs full : Z) | UConflict | UFail.

(** Successful writes: the object read and the one stored. machineset_util.go 62, machineset.go 862. *)
Inductive Call := CSet (base new : HSet) | CMach (base new : HMach).

(** What applyUpdate does: panic, refuse (precondition violated), or change. machineset_util.go 59. *)
Inductive App (A : Type) := APanic | ARefuse | AChange (a : A).
Arguments APanic {A}. Arguments ARefuse {A}. Arguments AChange {A} a.

(** Result of an update with retries: panic, error (and whether the returned object is not nil),
    the object. machineset_util.go 48-75. *)
Inductive Res := RPanic | RErr (nonnil : bool) | ROk (s : HSet).

(** UpdateISWithRetries, machineset_util.go 48-75; [left] attempts of retry.DefaultBackoff
    (external, 4 steps); [ask i]: lister and API answers in attempt [i]. *)
Fixpoint updateIS (left : nat) (i : nat) (apply : HSet -> App HSet) (ask : nat -> option HSet * Upd) : Res * list Call :=
  match left with
  | O => (RErr true, [])
  | S left' =>
      match fst (ask i) with
      | None => (RErr false, [])
      | Some s =>
          match apply s with
          | APanic => (RPanic, [])
          | ARefuse => (ROk s, [])
          | AChange s' =>
              match snd (ask i) with
              | UOk g o f => let r := mkHS (hs_sel s') (hs_labels s') (hs_tmpl s') (hs_replicas s') g o f in (ROk r, [CSet s r])
              | UConflict => updateIS left' (S i) apply ask
              | UFail => (RErr true, [])
              end
          end
      end
  end.

(** The change of step 1, deployment_sync.go 171-178. *)
Definition labelTemplate (hash : string) (s : HSet) : App HSet :=
  if String.eqb (read hashKey (hs_tmpl s)) hash then ARefuse
  else AChange (mkHS (hs_sel s) (hs_labels s) (put hashKey hash (hs_tmpl s)) (hs_replicas s) (hs_gen s) (hs_obs s) (hs_full s)).

(** The change of step 3, deployment_sync.go 207-215 with labels.go 116-124: a nil selector is
    dereferenced on either branch. *)
Definition labelSelector (hash : string) (s : HSet) : App HSet :=
  match hs_sel s with
  | None => APanic
  | Some sel =>
      if String.eqb (read hashKey (hs_labels s)) hash && String.eqb (read hashKey sel) hash then ARefuse
      else AChange (mkHS (Some (put hashKey hash sel)) (put hashKey hash (hs_labels s)) (hs_tmpl s) (hs_replicas s) (hs_gen s) (hs_obs s) (hs_full s))
  end.

(** wait.PollImmediate (external) of deployment_util.go 900-907 and 911-919: the lister answers
    until the minute is over; true: the condition came true. *)
Fixpoint poll (cond : HSet -> bool) (answers : list (option HSet)) : bool :=
  match answers with
  | [] => false
  | None :: _ => false
  | Some s :: r => if cond s then true else poll cond r
  end.
(** WaitForMachineSetUpdated, deployment_util.go 899-907. *)
Definition updated (gen : Z) (s : HSet) : bool := gen <=? hs_obs s.
(** WaitForMachinesHashPopulated, deployment_util.go 910-920. *)
Definition populated (gen : Z) (s : HSet) : bool := (gen <=? hs_obs s) && (hs_full s =? hs_replicas s).

(** UpdateMachineWithRetries (machineset.go 848-874) with the change of deployment_util.go
    931-938; true: no error. *)
Fixpoint updateMach (left : nat) (i : nat) (hash : string) (ask : nat -> option HMach * Upd) : bool * list Call :=
  match left with
  | O => (false, [])
  | S left' =>
      match fst (ask i) with
      | None => (false, [])
      | Some m =>
          if String.eqb (read hashKey (hm_labels m)) hash then (true, [])
          else match snd (ask i) with
               | UOk _ _ _ => (true, [CMach m (mkHM (hm_name m) (hm_phase m) (hm_owner m) (put hashKey hash (hm_labels m)))])
               | UConflict => updateMach left' (S i) hash ask
               | UFail => (false, [])
               end
      end
  end.

(** LabelMachinesWithHash, deployment_util.go 922-945; [ask n i]: answers for machine [n]. *)
Fixpoint labelMachines (hash : string) (ask : string -> nat -> option HMach * Upd) (l : list HMach) : bool * list Call :=
  match l with
  | [] => (true, [])
  | m :: r =>
      if negb (activeMach m) || String.eqb (read hashKey (hm_labels m)) hash then labelMachines hash ask r
      else let '(ok, c) := updateMach 4 0 hash (ask (hm_name m)) in
           if ok then let '(ok', c') := labelMachines hash ask r in (ok', c ++ c') else (false, c)
  end.

(** All answers during one pass over a set. deployment_sync.go 160-223. *)
Record Answers := mkA {
  a_ask1 : nat -> option HSet * Upd;            (* step 1 *)
  a_wait1 : list (option HSet);                 (* WaitForMachineSetUpdated *)
  a_mach : string -> nat -> option HMach * Upd; (* step 2 *)
  a_wait2 : list (option HSet);                 (* WaitForMachinesHashPopulated *)
  a_ask3 : nat -> option HSet * Upd             (* step 3 *)
}.

(** How the pass ends. deployment_sync.go 160-223. *)
Inductive End := EPanic | EErr | EDone (s : HSet).

(** addHashKeyToISAndMachines, deployment_sync.go 160-223. A failed read of the set in step 3
    makes the error message (218) dereference nil. *)
Definition addHashKey (hash : string) (is : HSet) (machines : list HMach) (a : Answers) : End * list Call :=
  match hs_sel is with
  | None => (EPanic, [])
  | Some sel =>
      if negb (String.eqb (read hashKey sel) "") then (EDone is, [])
      else match updateIS 4 0 (labelTemplate hash) (a_ask1 a) with
           | (RPanic, c1) => (EPanic, c1)
           | (RErr _, c1) => (EErr, c1)
           | (ROk s1, c1) =>
               if (hs_obs s1 <? hs_gen s1) && negb (poll (updated (hs_gen s1)) (a_wait1 a)) then (EErr, c1)
               else let '(ok, c2) := labelMachines hash (a_mach a) machines in
                    if negb ok then (EErr, c1 ++ c2)
                    else if negb (poll (populated (hs_gen s1)) (a_wait2 a)) then (EErr, c1 ++ c2)
                    else match updateIS 4 0 (labelSelector hash) (a_ask3 a) with
                         | (RPanic, c3) => (EPanic, c1 ++ c2 ++ c3)
                         | (RErr true, c3) => (EErr, c1 ++ c2 ++ c3)
                         | (RErr false, c3) => (EPanic, c1 ++ c2 ++ c3)
                         | (ROk s3, c3) => (EDone s3, c1 ++ c2 ++ c3)
                         end
           end
  end.

(** isAndMachinesWithHashKeySynced, deployment_sync.go 141-155: the sets in turn, each with its
    machines and answers; the first error ends the pass. *)
Fixpoint syncSets (l : list (string * HSet * list HMach * Answers)) : option (option (list HSet)) * list Call :=
  match l with
  | [] => (Some (Some []), [])
  | (hash, is, ms, a) :: r =>
      match addHashKey hash is ms a with
      | (EPanic, c) => (None, c)
      | (EErr, c) => (Some None, c)
      | (EDone s, c) =>
          let '(x, c') := syncSets r in
          (match x with None => None | Some None => Some None | Some (Some l') => Some (Some (s :: l')) end, c ++ c')
      end
  end.
