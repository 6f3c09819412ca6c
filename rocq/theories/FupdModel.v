(** Writing the finalizers of machine deployments, machine sets and machines.
    Sources: pkg/controller/deployment.go 575-613, machineset.go 739-793,
    pkg/util/provider/machinecontroller/machine_util.go 820-870.
    External: the API server (optimistic locking; an object that is being deleted takes no new
    finalizers and is gone with its last one) and what others do between two calls. *)
Require Import Coq.Lists.List Coq.Strings.String Coq.Bool.Bool Coq.Arith.PeanoNat.
From Verif Require Import Sort.
Import ListNotations.
Open Scope string_scope.
Open Scope list_scope.

(** DeleteFinalizerName, pkg/controller/controller.go 47-51, and MCMFinalizerName,
    pkg/util/provider/machinecontroller/controller.go 47-54: the same text. *)
Definition FinalizerName : string := "machine.sapcloud.io/machine-controller-manager".

(** An object as far as it matters: finalizers, deletion mark, resource version. Read at
    deployment.go 580-613, machineset.go 744-793, machine_util.go 825-870. *)
Record Ob := mkOb { f_fins : list string; f_del : bool; f_rv : nat }.

(** External: the API server storing an object with a new version; the calls are at
    deployment.go 607, machineset.go 784 and machine_util.go 831, 853. *)
Definition put (o : Ob) (fins : list string) : option Ob :=
  if f_del o && match fins with [] => true | _ => false end then None else Some (mkOb fins (f_del o) (S (f_rv o))).
(** External: does the API server accept an update of the object with version [rv]? The calls
    are at deployment.go 607, machineset.go 784, machine_util.go 831, 853. *)
Definition accepts (o : Ob) (fins : list string) (rv : nat) : bool :=
  Nat.eqb rv (f_rv o) && (negb (f_del o) || forallb (fun f => existsb (String.eqb f) (f_fins o)) fins).

(** One attempt, seen from outside: what others do before the Get, whether the Get goes through,
    what others do between Get and Update, whether the Update goes through (an accepted one).
    Around deployment.go 598-613 and machineset.go 773-789. *)
Record Attempt := mkAtt { a_before : option Ob -> option Ob; a_get : bool; a_between : option Ob -> option Ob; a_put : bool }.

(** How a call ends: without error, with an error, or not within the attempts that are given.
    No counterpart: book-keeping for deployment.go 598-613, machineset.go 769-793. *)
Inductive Ending := Done | Failed | Trying.

(** The Update of an attempt after a Get that gave version [rv]: the new stored object, or None
    for a failure. deployment.go 605-607, machineset.go 781-784. *)
Definition write (a : Attempt) (s : option Ob) (fins : list string) (rv : nat) : option (option Ob) :=
  match s with
  | Some o => if a_put a && accepts o fins rv then Some (put o fins) else None
  | None => None
  end.

(** updateMachineDeploymentFinalizers, deployment.go 598-613: calls itself until an Update goes
    through; a failing Get ends it without error. *)
Fixpoint updateDep (fins : list string) (s : option Ob) (atts : list Attempt) : option Ob * Ending :=
  match atts with
  | [] => (s, Trying)
  | a :: r =>
      let s1 := a_before a s in
      match (if a_get a then s1 else None) with
      | None => (s1, Done)
      | Some o =>
          let s2 := a_between a s1 in
          match write a s2 fins (f_rv o) with
          | Some s3 => (s3, Done)
          | None => updateDep fins s2 r
          end
      end
  end.

(** finalizerUpdateRetries, machineset.go 65. *)
Definition finalizerUpdateRetries : nat := 2.
(** updateMachineSetFinalizers, machineset.go 769-793: at most [n] attempts, and a failing Get
    is an error. *)
Fixpoint updateSet (n : nat) (fins : list string) (s : option Ob) (atts : list Attempt) : option Ob * Ending :=
  match n with
  | O => (s, Failed)
  | S n' =>
      match atts with
      | [] => (s, Trying)
      | a :: r =>
          let s1 := a_before a s in
          match (if a_get a then s1 else None) with
          | None => (s1, Failed)
          | Some o =>
              let s2 := a_between a s1 in
              match write a s2 fins (f_rv o) with
              | Some s3 => (s3, Done)
              | None => updateSet n' fins s2 r
              end
          end
      end
  end.

(** sets.NewString(...).List(), sorted and without repetitions: deployment.go 583-585, 592-594,
    machineset.go 747-749, 759-761, machine_util.go 826-830, 848-852. *)
Definition asList (l : list string) : list string := isort String.leb (nodup string_dec l).
(** What is written for adding (None: nothing is written), from the object as it was read:
    deployment.go 580-587, machineset.go 744-754, machine_util.go 825-830. *)
Definition toAdd (view : Ob) : option (list string) :=
  if existsb (String.eqb FinalizerName) (f_fins view) then None else Some (asList (FinalizerName :: f_fins view)).
(** The same for removing: deployment.go 589-596, machineset.go 756-766, machine_util.go 847-852. *)
Definition toRemove (view : Ob) : option (list string) :=
  if existsb (String.eqb FinalizerName) (f_fins view) then Some (filter (fun f => negb (String.eqb f FinalizerName)) (asList (f_fins view))) else None.

(** add- and deleteMachineDeploymentFinalizers, deployment.go 580-596. *)
Definition depFinalizers (want : Ob -> option (list string)) (view : Ob) (s : option Ob) (atts : list Attempt) : option Ob * Ending :=
  match want view with None => (s, Done) | Some fins => updateDep fins s atts end.
(** add- and deleteMachineSetFinalizers, machineset.go 744-766. *)
Definition setFinalizers (want : Ob -> option (list string)) (view : Ob) (s : option Ob) (atts : list Attempt) : option Ob * Ending :=
  match want view with None => (s, Done) | Some fins => updateSet finalizerUpdateRetries fins s atts end.

(** addMachineFinalizers, machine_util.go 825-845: one Update with the version of the machine
    that was read; an error also when it was written, so that the pass ends. The flag: the
    Update goes through. *)
Definition addMachineFinalizers (view : Ob) (ok : bool) (s : option Ob) : option Ob * Ending :=
  match toAdd view with
  | None => (s, Done)
  | Some fins => match s with
                 | Some o => if ok && accepts o fins (f_rv view) then (put o fins, Failed) else (s, Failed)
                 | None => (s, Failed)
                 end
  end.
(** deleteMachineFinalizers, machine_util.go 847-870. *)
Definition deleteMachineFinalizers (view : Ob) (ok : bool) (s : option Ob) : option Ob * Ending :=
  match toRemove view with
  | None => (s, Done)
  | Some fins => match s with
                 | Some o => if ok && accepts o fins (f_rv view) then (put o fins, Done) else (s, Failed)
                 | None => (s, Failed)
                 end
  end.
