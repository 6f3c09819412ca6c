(* Model of the taint library: lists of taints, their text form, and the calls
   that add or remove a taint on a Node through the API server.
   Source: pkg/util/taints/taints.go, pkg/util/nodeops/taints.go. *)
Require Import List String Ascii Bool Arith.
From Verif Require Import MetaModel.
Import ListNotations.
Open Scope string_scope.
Open Scope list_scope.

(* ---- lists ---- *)

(* Taint.MatchTaint (k8s.io/api/core/v1/taint.go): same key and effect. *)
Definition MatchTaint (a b : Taint) : bool := sameKE a b.

(* Equality of optional times, followed through the pointer.
   Part of apiequality.Semantic.DeepEqual (external), taints.go 268-294. *)
Definition timeEq (a b : option nat) : bool :=
  match a, b with
  | None, None => true
  | Some x, Some y => Nat.eqb x y
  | _, _ => false
  end.

(* equality.Semantic.DeepEqual on two taints (taints.go 277): all fields, times
   by value. *)
Definition semEq (a b : Taint) : bool :=
  String.eqb (tKey a) (tKey b) && String.eqb (tValue a) (tValue b)
  && String.eqb (tEffect a) (tEffect b) && timeEq (tTime a) (tTime b).

(* TaintExists (taints.go 296-304). *)
Definition TaintExists (l : list Taint) (t : Taint) : bool := existsb (fun x => MatchTaint x t) l.

(* DeleteTaint (taints.go 234-246). *)
Fixpoint DeleteTaint (l : list Taint) (t : Taint) : list Taint * bool :=
  match l with
  | [] => ([], false)
  | x :: l' =>
      let '(r, d) := DeleteTaint l' t in
      if MatchTaint t x then (r, true) else (x :: r, d)
  end.

(* DeleteTaintsByKey (taints.go 220-232). *)
Fixpoint DeleteTaintsByKey (l : list Taint) (k : string) : list Taint * bool :=
  match l with
  | [] => ([], false)
  | x :: l' =>
      let '(r, d) := DeleteTaintsByKey l' k in
      if String.eqb k (tKey x) then (r, true) else (x :: r, d)
  end.

(* RemoveTaint (taints.go 248-264), on the taints of the node. *)
Definition RemoveTaint (l : list Taint) (t : Taint) : list Taint * bool :=
  match l with
  | [] => (l, false)
  | _ => if TaintExists l t then (fst (DeleteTaint l t), true) else (l, false)
  end.

(* The loop of AddOrUpdateTaint (taints.go 273-293): [None] is the early return
   at 278; otherwise the new list and whether a matching entry was replaced. *)
Fixpoint addLoop (l : list Taint) (t : Taint) : option (list Taint * bool) :=
  match l with
  | [] => Some ([], false)
  | x :: l' =>
      if MatchTaint t x then
        if semEq t x then None
        else match addLoop l' t with None => None | Some (r, _) => Some (t :: r, true) end
      else match addLoop l' t with None => None | Some (r, u) => Some (x :: r, u) end
  end.

(* AddOrUpdateTaint (taints.go 266-294). *)
Definition AddOrUpdateTaint (l : list Taint) (t : Taint) : list Taint * bool :=
  match addLoop l t with
  | None => (l, false)
  | Some (r, u) => (if u then r else r ++ [t], true)
  end.

(* TaintSetDiff (taints.go 306-323): to add, to remove. *)
Definition TaintSetDiff (t1 t2 : list Taint) : list Taint * list Taint :=
  (filter (fun t => negb (TaintExists t2 t)) t1, filter (fun t => negb (TaintExists t1 t)) t2).

(* addTaints (taints.go 189-205): old taints that the new list lacks are
   appended; "added" compares the lengths. *)
Definition addTaints (old new : list Taint) : list Taint * bool :=
  let r := fold_left (fun acc o => if existsb (fun t => MatchTaint t o) acc then acc else acc ++ [o]) old new in
  (r, negb (Nat.eqb (List.length old) (List.length r))).

(* deleteTaints (taints.go 172-187): the list, the number of "not found" errors,
   and [removed], which is that of the last taint only. *)
Definition deleteTaints (rm new : list Taint) : list Taint * nat * bool :=
  fold_left (fun st t =>
    let '(l, errs, _) := st in
    let '(l', d) := if Nat.ltb 0 (String.length (tEffect t)) then DeleteTaint l t
                    else DeleteTaintsByKey l (tKey t) in
    (l', if d then errs else S errs, d)) rm (new, 0, false).

(* The first result of ReorganizeTaints (taints.go 35-43). *)
Inductive Report := MODIFIED | TAINTED | UNTAINTED.

(* ReorganizeTaints (taints.go 156-170). *)
Definition ReorganizeTaints (old : list Taint) (overwrite : bool) (add rm : list Taint)
  : Report * list Taint * nat :=
  let '(new, added) := addTaints old add in
  let '(new', errs, deleted) := deleteTaints rm new in
  (if (added && deleted) || overwrite then MODIFIED
   else if added then TAINTED else UNTAINTED, new', errs).

(* ---- text ---- *)

(* strings.Split with a separator of one byte. taints.go 48, 53, 88, 144. *)
Fixpoint split (c : ascii) (s : string) : list string :=
  match s with
  | EmptyString => [EmptyString]
  | String x s' =>
      if Ascii.eqb x c then EmptyString :: split c s'
      else match split c s' with
           | [] => [String x EmptyString]
           | p :: ps => String x p :: ps
           end
  end.

(* strings.Join. taints.go 59, 110, 217. *)
Fixpoint join (sep : string) (l : list string) : string :=
  match l with
  | [] => ""
  | [s] => s
  | s :: l' => s ++ sep ++ join sep l'
  end.

(* strings.Contains with one byte. taints.go 124, 143. *)
Fixpoint contains (c : ascii) (s : string) : bool :=
  match s with
  | EmptyString => false
  | String x s' => Ascii.eqb x c || contains c s'
  end.

(* Outcome of reading a text: a run-time panic is told from an error. taints.go 46-111. *)
Inductive Read (A : Type) := RPanic | RError | ROk (a : A).
Arguments RPanic {A}.
Arguments RError {A}.
Arguments ROk {A} a.

(* taints.go 62. *)
Definition knownEffect (e : string) : bool :=
  String.eqb e "NoSchedule" || String.eqb e "PreferNoSchedule" || String.eqb e "NoExecute".

(* parseTaint (taints.go 45-71). [qn] and [lv] stand for validation.IsQualifiedName
   and validation.IsValidLabelValue reporting no error.  parts2[1] is read
   before the length of parts2 is looked at (55, 58). *)
Definition parseTaint (qn lv : string -> bool) (st : string) : Read Taint :=
  match split "=" st with
  | [k; p] =>
      if Nat.eqb (String.length p) 0 || negb (qn k) then RError
      else match split ":" p with
           | v :: e :: rest =>
               if negb (Nat.eqb (List.length rest) 0) || negb (lv v) then RError
               else if knownEffect e then ROk (mkTaint k v e None)
               else RError
           | _ => RPanic
           end
  | _ => RError
  end.

(* The loop shared by the readers: stop at the first error or panic. taints.go 87-99, 119-154. *)
Fixpoint readAll {A} (f : string -> Read A) (l : list string) : Read (list A) :=
  match l with
  | [] => ROk []
  | s :: l' =>
      match f s with
      | RPanic => RPanic
      | RError => RError
      | ROk a => match readAll f l' with
                 | RPanic => RPanic
                 | RError => RError
                 | ROk r => ROk (a :: r)
                 end
      end
  end.

(* (Var).Set (taints.go 86-99). *)
Definition VarSet (qn lv : string -> bool) (s : string) : Read (list Taint) :=
  readAll (parseTaint qn lv) (split "," s).

(* fmt.Sprintf("%s=%s:%s") (taints.go 108). *)
Definition taintText (t : Taint) : string := tKey t ++ "=" ++ tValue t ++ ":" ++ tEffect t.

(* (Var).String (taints.go 101-111). *)
Definition VarString (l : list Taint) : string :=
  match l with
  | [] => "<nil>"
  | _ => join "," (map taintText l)
  end.

(* taintSpec[:len(taintSpec)-1] of a text ending in "-" (taints.go 140-141). *)
Fixpoint dropDash (s : string) : option string :=
  match s with
  | EmptyString => None
  | String x EmptyString => if Ascii.eqb x "-" then Some EmptyString else None
  | String x s' => match dropDash s' with None => None | Some r => Some (String x r) end
  end.

(* ParseTaints (taints.go 118-154): taints to add, taints to remove. *)
Fixpoint ParseTaintsLoop (qn lv : string -> bool) (spec : list string) (add rm : list Taint)
  : Read (list Taint * list Taint) :=
  match spec with
  | [] => ROk (add, rm)
  | s :: spec' =>
      if contains "=" s && contains ":" s then
        match parseTaint qn lv s with
        | RPanic => RPanic
        | RError => RError
        | ROk t => if existsb (fun x => sameKE x t) add then RError
                   else ParseTaintsLoop qn lv spec' (add ++ [t]) rm
        end
      else match dropDash s with
           | None => RError
           | Some k =>
               if contains ":" k then
                 match split ":" k with
                 | k' :: e :: _ => ParseTaintsLoop qn lv spec' add (rm ++ [mkTaint k' "" e None])
                 | _ => RPanic
                 end
               else ParseTaintsLoop qn lv spec' add (rm ++ [mkTaint k "" "" None])
           end
  end.

(* The call itself, from empty lists (taints.go 120). *)
Definition ParseTaints (qn lv : string -> bool) (spec : list string)
  : Read (list Taint * list Taint) := ParseTaintsLoop qn lv spec [] [].

(* ---- through the API server ---- *)

(* A Node object: its resource version, its taints, and the rest. nodeops/taints.go 33-167. *)
Record Obj := mkObj {
  oVersion : nat;
  oTaints : list Taint;
  oRest : nat
}.

(* Errors as far as the retry helper tells them apart.
   nodeops/taints.go 33-127 (external: clientretry). *)
Inductive ApiError := Conflict | NotFound | Other.

(* Nodes().Update: a stale resource version is a conflict, nothing stored;
   otherwise the object replaces the stored one under a new version.  [fail] is
   any other failure. External; called at nodeops/taints.go 157-167. *)
Definition update (fail : option ApiError) (srv o : Obj) : Obj * option ApiError :=
  match fail with
  | Some e => (srv, Some e)
  | None =>
      if Nat.eqb (oVersion o) (oVersion srv)
      then (mkObj (S (oVersion srv)) (oTaints o) (oRest o), None)
      else (srv, Some Conflict)
  end.

(* UpdateNodeTaints (nodeops/taints.go 155-167): the error is put into a new one
   with %v, after which it is not a conflict any more for apierrors.IsConflict. *)
Definition UpdateNodeTaints (fail : option ApiError) (srv old : Obj) (l : list Taint)
  : Obj * option ApiError :=
  match update fail srv (mkObj (oVersion old) l (oRest old)) with
  | (srv', None) => (srv', None)
  | (srv', Some _) => (srv', Some Other)
  end.

(* One attempt of AddOrUpdateTaintOnNode / RemoveTaintOffNode (nodeops/taints.go
   38-69, 95-126): [view] is what the Get returned, [edit] the change of the
   taint list with its flag. *)
Definition attempt (edit : list Taint -> list Taint * bool) (view : Obj + ApiError)
    (fail : option ApiError) (srv : Obj) : Obj * option ApiError :=
  match view with
  | inr e => (srv, Some e)
  | inl o =>
      let '(l, updated) := edit (oTaints o) in
      if updated then UpdateNodeTaints fail srv o l else (srv, None)
  end.

(* What surrounds one attempt: how the Get answers, what others do to the node
   between it and the update, and how the update fails if it does. nodeops/taints.go 33-127. *)
Record Around := mkAround {
  arGet : Obj -> Obj + ApiError;
  arOthers : Obj -> Obj;
  arFail : option ApiError
}.

(* clientretry.RetryOnConflict: run again after a conflict, and only then, while
   steps are left (nodeops/taints.go 24-29: five of them). *)
Fixpoint retryOnConflict (edit : list Taint -> list Taint * bool) (steps : list Around) (srv : Obj)
  : Obj * option ApiError :=
  match steps with
  | [] => (srv, Some Other)
  | a :: steps' =>
      let view := arGet a srv in
      match attempt edit view (arFail a) (arOthers a srv) with
      | (srv', Some Conflict) => retryOnConflict edit steps' srv'
      | r => r
      end
  end.

(* Several taints are applied one after the other (nodeops/taints.go 53-64,
   110-121). *)
Definition editAll (f : list Taint -> Taint -> list Taint * bool) (ts : list Taint)
    (l : list Taint) : list Taint * bool :=
  fold_left (fun st t => let '(l, u) := st in let '(l', ok) := f l t in (l', u || ok)) ts (l, false).

(* AddOrUpdateTaintOnNode (nodeops/taints.go 31-70). *)
Definition AddOrUpdateTaintOnNode (ts : list Taint) (steps : list Around) (srv : Obj)
  : Obj * option ApiError :=
  match ts with
  | [] => (srv, None)
  | _ => retryOnConflict (editAll AddOrUpdateTaint ts) steps srv
  end.

(* RemoveTaintOffNode (nodeops/taints.go 72-127); [node] is the object the caller
   passes, if any. *)
Definition RemoveTaintOffNode (node : option Obj) (ts : list Taint) (steps : list Around) (srv : Obj)
  : Obj * option ApiError :=
  match ts with
  | [] => (srv, None)
  | _ =>
      if match node with
         | Some o => negb (existsb (fun t => TaintExists (oTaints o) t) ts)
         | None => false
         end
      then (srv, None)
      else retryOnConflict (editAll RemoveTaint ts) steps srv
  end.

(* ---- the machine sets of a rollout ---- *)

(* A MachineSet as far as tainting goes: whether it carries the annotation with
   the taint's key, and the node label of each claimed machine ("" if none).
   deployment_rolling.go 294-375. *)
Record TSet := mkTSet {
  tsMarked : bool;
  tsNodes : list string
}.

(* The Node objects by name. External; reached through nodeops/taints.go 33-127. *)
Definition Nodes := string -> Obj.

(* Replace one node. External; reached through nodeops/taints.go 157-167. *)
Definition setNode (n : string) (o : Obj) (ns : Nodes) : Nodes :=
  fun x => if String.eqb x n then o else ns x.

(* The loop over the machines of one set (deployment_rolling.go 323-337): an
   error is logged and the loop goes on. [env] gives what surrounds the calls for
   a node. *)
Fixpoint taintMachines (t : Taint) (env : string -> list Around) (machines : list string) (ns : Nodes) : Nodes :=
  match machines with
  | [] => ns
  | "" :: ms => taintMachines t env ms ns
  | n :: ms => taintMachines t env ms (setNode n (fst (AddOrUpdateTaintOnNode [t] (env n) (ns n))) ns)
  end.

(* taintNodesBackingMachineSets for one old MachineSet (deployment_rolling.go
   293-375): skipped if marked; the machines' nodes; then the mark, whose update
   is retried for a minute and may fail in the end ([markOk] = false). *)
Definition taintSet (t : Taint) (env : string -> list Around) (markOk : bool) (s : TSet) (ns : Nodes)
  : TSet * Nodes :=
  if tsMarked s then (s, ns)
  else (mkTSet markOk (tsNodes s), taintMachines t env (tsNodes s) ns).

(* removeTaintNodesBackingMachineSet, the loop (deployment_rollback.go 170-191):
   [got] is the object read first; if that read fails the node is skipped. *)
Fixpoint untaintMachines (t : Taint) (got : string -> option Obj) (env : string -> list Around)
    (machines : list string) (ns : Nodes) : Nodes :=
  match machines with
  | [] => ns
  | "" :: ms => untaintMachines t got env ms ns
  | n :: ms =>
      match got n with
      | None => untaintMachines t got env ms ns
      | Some o => untaintMachines t got env ms
                    (setNode n (fst (RemoveTaintOffNode (Some o) [t] (env n) (ns n))) ns)
      end
  end.

(* removeTaintNodesBackingMachineSet (deployment_rollback.go 143-231). *)
Definition untaintSet (t : Taint) (got : string -> option Obj) (env : string -> list Around) (markOk : bool)
    (s : TSet) (ns : Nodes) : TSet * Nodes :=
  if tsMarked s
  then (mkTSet (negb markOk) (tsNodes s), untaintMachines t got env (tsNodes s) ns)
  else (s, ns).
