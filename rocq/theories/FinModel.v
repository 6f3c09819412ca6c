(* Model of the finalizers on machine classes and on the secrets of classes.
   Source: pkg/util/provider/machinecontroller/machineclass.go,
   machineclass_util.go, secret.go, secret_util.go.
   External: the API server (optimistic locking by resource version; an object
   being deleted takes no new finalizers and is gone with its last one), the
   caches (a pass may see any old state) and sets.String. *)
Require Import List String Bool Arith.
From Verif Require Import Sort.
Import ListNotations.
Open Scope string_scope.
Open Scope list_scope.
Open Scope nat_scope.

(* The two kinds of object that are protected by a finalizer (machineclass.go 98,
   secret.go 49). *)
Inductive Kind := KClass | KSecret.

(* MCMFinalizerName on classes, MCFinalizerName on secrets (controller.go 47-54,
   machineclass.go 118, 146, secret.go 88, 98). *)
Definition me (k : Kind) : string :=
  match k with
  | KClass => "machine.sapcloud.io/machine-controller-manager"
  | KSecret => "machine.sapcloud.io/machine-controller"
  end.

(* What matters of a class or secret: finalizers, deletion timestamp, resource
   version (machineclass.go 115-148, 173-180; secret.go 88, 107-114). *)
Record Obj := mkObj { oFins : list string; oDel : bool; oRV : nat }.

(* sets.NewString(l...).List(): sorted, without repetitions (machineclass.go
   160-162, 166-168; secret.go 88-90, 98-100). *)
Definition setList (l : list string) : list string := isort String.leb (nodup string_dec l).

(* finalizers.Has (machineclass.go 118, 146; secret.go 88, 98). *)
Definition Has (f : string) (l : list string) : bool := existsb (String.eqb f) l.

(* The finalizers written when adding and removing the own one (machineclass.go
   159-169, secret.go 88-90, 98-100): computed from the object in the cache. *)
Definition withMe (k : Kind) (o : Obj) : list string := setList (me k :: oFins o).
(* The same for removing (machineclass.go 165-169, secret.go 98-100). *)
Definition withoutMe (k : Kind) (o : Obj) : list string :=
  filter (fun f => negb (String.eqb f (me k))) (setList (oFins o)).

(* What a pass decides to do. machineclass.go 98-152, secret.go 49-78. *)
Inductive Decision := Nothing | Retry | Put (fins : list string).

(* reconcileClusterMachineClass (machineclass.go 115-151), on the class and the
   names of the machines referring to it, both from caches. *)
Definition decideClass (o : Obj) (machines : list nat) : Decision :=
  match machines with
  | _ :: _ =>
      if oDel o then Retry
      else if Has (me KClass) (oFins o) then Nothing else Put (withMe KClass o)
  | [] => if Has (me KClass) (oFins o) then Put (withoutMe KClass o) else Nothing
  end.

(* reconcileClusterSecret, addSecretFinalizers, deleteSecretFinalizers (secret.go
   58-77, 85-103), on the secret and the classes referring to it. *)
Definition decideSecret (o : Obj) (classes : list nat) : Decision :=
  match classes with
  | _ :: _ => if Has (me KSecret) (oFins o) then Nothing else Put (withMe KSecret o)
  | [] => if Has (me KSecret) (oFins o) then Put (withoutMe KSecret o) else Nothing
  end.

(* The pass for either kind (machineclass.go 98-152, secret.go 49-78). *)
Definition decide (k : Kind) (o : Obj) (refs : list nat) : Decision :=
  match k with KClass => decideClass o refs | KSecret => decideSecret o refs end.

(* A pass under way (machineclass.go 171-191, secret.go 105-122): finalizers
   computed; then the live object fetched, of which the resource version is
   kept. *)
Inductive Pend := Idle | Decided (fins : list string) | Fetched (fins : list string) (rv : nat).

(* The world of one class or secret: the object on the server, the names of the
   objects referring to it, the pass under way, and the last resource version
   given out. Input of machineclass.go 98-191 and secret.go 49-122. *)
Record St := mkSt { srv : option Obj; refs : list nat; pend : Pend; rev : nat }.

(* Storing a changed object (API server).
   External; the calls are at machineclass.go 171-191, secret.go 105-122. *)
Definition store (s : St) (fins : list string) (del : bool) : St :=
  mkSt (if del && match fins with [] => true | _ => false end then None
        else Some (mkObj fins del (S (rev s)))) (refs s) (pend s) (S (rev s)).

(* Update with a resource version (machineclass.go 180, secret.go 114; API
   server): refused on a conflict, and if it adds a finalizer to an object that
   is being deleted. *)
Definition update (s : St) (fins : list string) (rv : nat) : St :=
  match srv s with
  | None => s
  | Some o =>
      if negb (Nat.eqb rv (oRV o)) then s
      else if oDel o && negb (forallb (fun f => Has f (oFins o)) fins) then s
      else store s fins (oDel o)
  end.

(* Forgetting or changing the pass under way. No counterpart: book-keeping for machineclass.go 98-191. *)
Definition setPend (p : Pend) (s : St) : St := mkSt (srv s) (refs s) p (rev s).

(* Steps of the controller ([Look] with the views of the caches, [Fetch] and
   [Write] with their failures; machineclass.go 98-191, secret.go 49-122) and of
   others. *)
Inductive Op :=
| Look (view : Obj) (seen : list nat)
| Fetch (fails : bool)
| Write (fails : bool)
| OtherAdds (f : string)
| OtherRemoves (f : string)
| DeleteReq
| Recreate (fins : list string)
| RefAdd (m : nat)
| RefDel (m : nat).

(* One step (machineclass.go 98-191, secret.go 49-122; API server). *)
Definition step (k : Kind) (s : St) (o : Op) : St :=
  match o with
  | Look view seen =>
      setPend (match decide k view seen with Put l => Decided l | _ => Idle end) s
  | Fetch fails =>
      match pend s with
      | Decided l =>
          if fails then setPend Idle s
          else match srv s with
               | None => setPend Idle s
               | Some ob => setPend (Fetched l (oRV ob)) s
               end
      | _ => s
      end
  | Write fails =>
      match pend s with
      | Fetched l rv => if fails then setPend Idle s else update (setPend Idle s) l rv
      | _ => s
      end
  | OtherAdds f =>
      match srv s with
      | Some ob => if oDel ob || Has f (oFins ob) then s else store s (oFins ob ++ [f]) false
      | None => s
      end
  | OtherRemoves f =>
      match srv s with
      | Some ob =>
          if Has f (oFins ob) then
            store s (filter (fun x => negb (String.eqb x f)) (oFins ob)) (oDel ob)
          else s
      | None => s
      end
  | DeleteReq =>
      match srv s with
      | Some ob => if oDel ob then s else store s (oFins ob) true
      | None => s
      end
  | Recreate fins =>
      match srv s with
      | Some _ => s
      | None => store s fins false
      end
  | RefAdd m => mkSt (srv s) (m :: refs s) (pend s) (rev s)
  | RefDel m => mkSt (srv s) (filter (fun x => negb (Nat.eqb x m)) (refs s)) (pend s) (rev s)
  end.

(* A sequence of steps (machineclass.go 98-191, secret.go 49-122). *)
Definition run (k : Kind) (s : St) (ops : list Op) : St := fold_left (step k) ops s.

(* ---- which secrets are queued ---- *)

(* A corev1.SecretReference: namespace and name (secret.go 150-167). *)
Definition SRef := (string * string)%type.

(* The references of a class: SecretRef, CredentialsSecretRef (secret.go 171-189). *)
Record ClassRefs := mkRefs { secretRef : option SRef; credRef : option SRef }.

(* The key of a reference (secret.go 153). *)
Definition refKey (r : SRef) : string := (fst r ++ "/" ++ snd r)%string.

(* One reference as a list of keys. secret.go 150-156. *)
Definition keyOf (r : option SRef) : list string :=
  match r with Some x => [refKey x] | None => [] end.

(* machineClassToSecretAdd, also on deletion (secret.go 169-176, 192-194). *)
Definition machineClassToSecretAdd (c : ClassRefs) : list string :=
  match secretRef c with
  | None => []
  | Some _ => keyOf (secretRef c) ++ keyOf (credRef c)
  end.

(* Equality of references (secret.go 159). *)
Definition sref_eqb (a b : option SRef) : bool :=
  match a, b with
  | None, None => true
  | Some (x, y), Some (z, w) => String.eqb x z && String.eqb y w
  | _, _ => false
  end.

(* enqueueSecretForReferenceIfChanged (secret.go 158-167). *)
Definition enqueueIfChanged (old new : option SRef) : list string :=
  if sref_eqb old new then [] else keyOf old ++ keyOf new.

(* machineClassToSecretUpdate (secret.go 178-190). *)
Definition machineClassToSecretUpdate (old new : ClassRefs) : list string :=
  match secretRef old, secretRef new with
  | Some _, Some _ =>
      enqueueIfChanged (secretRef old) (secretRef new) ++ enqueueIfChanged (credRef old) (credRef new)
  | _, _ => []
  end.

(* findMachineClassForSecret (secret_util.go 29-44): by name only. *)
Definition refersTo (name : string) (c : ClassRefs) : bool :=
  match secretRef c with Some (_, n) => String.eqb n name | None => false end
  || match credRef c with Some (_, n) => String.eqb n name | None => false end.

(* existsMachineClassForSecret (secret_util.go 16-27). *)
Definition existsMachineClassForSecret (name : string) (cs : list ClassRefs) : bool :=
  existsb (refersTo name) cs.
