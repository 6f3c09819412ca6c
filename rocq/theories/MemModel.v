(* C115: what a reconcile may write.  The controllers read machines, nodes,
   classes and secrets out of shared informer caches, and hand pointers to
   them around.  This file is the memory these pointers point into and the
   small language the reconcile functions are written down in; the functions
   themselves are in MemMcModel.v and MemMcmModel.v.

   What is kept of a Go statement is which memory it reads, which memory it
   writes and what is a pointer to what.  Scalars (strings, numbers, times)
   are a number nobody looks at, so every branch may be taken.

   Simplified, all to the side of more behaviour unless said otherwise:
   - a struct held by value is part of the cell of what holds it: its fields
     get dotted names (machine.Spec.NodeTemplateSpec.Labels is the field
     "Spec.NodeTemplateSpec.Labels" of the machine);
   - an interior pointer (&machine.Status) is the pointer to the whole cell;
   - a map, a slice, a []byte is one cell; the entries are its fields; a
     slice of structs is a slice of pointers to cells of their own;
   - an API call returns a value nobody else has a pointer to
     (client-go decodes every response into a new object);
   - the client, the recorder, the drivers, klog and reflect.DeepEqual read
     what they are given and do not write it (less behaviour: a driver could);
   - the goroutines of a drain are run one after the other (less behaviour);
   - a nil pointer read gives nil instead of stopping. *)
Require Import List String Arith Bool PeanoNat.
Import ListNotations.
Open Scope string_scope.

(* Who put a cell there: an informer (client-go's shared cache, filled by
   cmd/machine-controller-manager/app/controllermanager.go:236-279
   and pkg/util/provider/app/app.go:243-296), the controller before its workers
   started, or one worker (pkg/controller/controller.go:220-224,
   pkg/util/provider/machinecontroller/controller.go:307-316: worker.Run starts
   a goroutine for each queue, as often as there are to be concurrent syncs;
   the event handlers of an informer run in a goroutine of their own and are
   workers too). *)
Inductive Owner := Cache | Common | Of (i : nat).

(* A pointer, no pointer, or something that is not a pointer (the fields of
   pkg/apis/machine/v1alpha1/machine_types.go:52-125). *)
Inductive Val := VNil | VLoc (l : nat) | VData (n : nat).
(* A cell: its fields by name, e.g. the Machine of
   pkg/apis/machine/v1alpha1/machine_types.go:36-49. *)
Definition Node := list (string * Val).
(* The memory of the process; a pointer is a place in it (the structs of
   pkg/apis/machine/v1alpha1/machine_types.go:36-49 and the others like it). *)
Definition Heap := list (Owner * Node).
(* The local variables of the functions a worker is in (e.g. machine and
   targetSecret in pkg/util/provider/machinecontroller/machine.go:136-171). *)
Definition Env := string -> Val.

(* One memory access of a worker; Locked is a write made while holding the
   mutex of the record (pkg/util/provider/drain/volume_attachment.go:71-106). *)
Inductive Event := Read (i l : nat) | Wrote (i l : nat) | Locked (i l : nat).

(* The statements of the reconcile functions (e.g. all kinds occur in
   pkg/util/provider/machinecontroller/machine_util.go:271-347). *)
Inductive Prim :=
| New (x : string)             (* x := an API response, a literal, or nil *)
| DeepCopy (x y : string)      (* x := y.DeepCopy() *)
| Make (n : nat) (x : string)  (* x := an empty map, slice or struct; n is a
                                  hint for the proofs and means nothing *)
| Cached (x : string)          (* x := lister.Get(..) or an object handed to
                                  an informer's event handler *)
| Global (x : string) (l : nat)(* x := the shared record l *)
| Let (x y : string)           (* x := y *)
| Get (x y f : string)         (* x := y.f, x := y[f] *)
| Elem (x y : string)          (* for _, x := range y, one turn *)
| Put (y f x : string)         (* y.f = x, y[f] = x *)
| Data (y f : string)          (* y.f = a string, number, time, struct of such *)
| Drop (y f : string)          (* y.f = nil, delete(y, f) *)
| Fields (y p x q : string)    (* y.p = x.q, structs: a shallow copy *)
| Append (z y x : string)      (* z = append(y, x) *)
| Send (y : string)            (* handed to the API, the driver, the log or a
                                  comparison: everything below may be read *)
| SetShared (l : nat) (f : string) (* shared record l: .f = .. *)
| LockedSet (l : nat) (f : string) (* the same between Lock() and Unlock() *).

(* A function body.  The second half of a Seq may be left out: a return or a
   failed call ends the rest of a function, a break or continue ends the rest
   of a turn of a loop (e.g. machine_util.go:276-284). *)
Inductive Prog :=
| Skip
| Do (p : Prim)
| Seq (a b : Prog)
| Alt (a b : Prog)
| Loop (b : Prog).
Coercion Do : Prim >-> Prog.

(* Statements one after the other, `if .. { .. }`, `for .. { .. }` (e.g.
   pkg/util/provider/machinecontroller/machine_util.go:361-383). *)
Definition block (l : list Prog) : Prog := fold_right Seq Skip l.
(* An if without else (machine_util.go:366). *)
Definition when (l : list Prog) : Prog := Alt (block l) Skip.
(* A loop (machine_util.go:371-376). *)
Definition loop (l : list Prog) : Prog := Loop (block l).

(* ---- reading and writing cells ---- *)
(* y.f and y[f] (e.g. machine_util.go:373); a field never set is nil. *)
Fixpoint look (n : Node) (f : string) : Val :=
  match n with
  | [] => VNil
  | (k, v) :: r => if String.eqb k f then v else look r f
  end.
(* delete(y, f) (e.g. machine_util.go:374). *)
Fixpoint without (n : Node) (f : string) : Node :=
  match n with
  | [] => []
  | (k, v) :: r => if String.eqb k f then without r f else (k, v) :: without r f
  end.
(* y.f = v and y[f] = v (e.g. machine_util.go:381). *)
Definition put (n : Node) (f : string) (v : Val) : Node := (f, v) :: without n f.

(* The fields of x below q as fields below p, in place of those of y below p
   (pkg/controller/machineset_util.go:145). *)
Definition rename (p q : string) (kv : string * Val) : string * Val :=
  (p ++ substring (String.length q) (String.length (fst kv)) (fst kv), snd kv).
(* y.p = x.q for structs (e.g. pkg/controller/machineset_util.go:145). *)
Definition copied (ny : Node) (p : string) (nx : Node) (q : string) : Node :=
  (map (rename p q) (filter (fun kv => prefix q (fst kv)) nx) ++
   filter (fun kv => negb (prefix p (fst kv))) ny)%list.

(* The memory after a write to cell l (e.g. machine_util.go:381). *)
Fixpoint store (h : Heap) (l : nat) (n : Node) : Heap :=
  match h, l with
  | [], _ => []
  | (o, _) :: r, 0 => (o, n) :: r
  | c :: r, S k => c :: store r k n
  end.

(* The local variables after x := v (e.g. machine_util.go:276). *)
Definition set (e : Env) (x : string) (v : Val) : Env :=
  fun y => if String.eqb x y then v else e y.

(* ---- what the world decides ---- *)
(* How a statement goes: the answers of the API server, the cache and the
   driver, the branches taken (e.g. machine_util.go:276-289). *)
Inductive Choice :=
| Go                              (* the only way to go on *)
| Cut                             (* return here *)
| Left | Right                    (* the branch *)
| Again | Stop                    (* the loop *)
| Blk (b : list Node) (v : Val) (ls : list nat)
                                  (* what an API call returned, what was read *)
| Pick (v : Val)                  (* which cached object, which element *)
| Num (f : string) (n : nat)      (* which key, which scalar *)
| InPlace | Fresh                 (* whether the slice had room *)
| Path (ls : list nat).           (* what was read *)

(* Whether a value is a pointer (simplification 1 above: the rest are scalars). *)
Definition isLoc (v : Val) : bool := match v with VLoc _ => true | _ => false end.
(* Equality of values (== on pointers in Go, e.g. machine_util.go:366). *)
Definition veq (a b : Val) : bool :=
  match a, b with
  | VNil, VNil => true
  | VLoc l, VLoc k => Nat.eqb l k
  | VData n, VData m => Nat.eqb n m
  | _, _ => false
  end.
(* Pointers of a new block stay inside the block (zz_generated.deepcopy.go:87-104). *)
Definition inside (base n : nat) (v : Val) : bool :=
  match v with VLoc l => Nat.leb base l && Nat.ltb l (base + n) | _ => true end.
(* What client-go decodes or DeepCopy makes points to itself only
   (pkg/apis/machine/v1alpha1/zz_generated.deepcopy.go:87-104). *)
Definition closed (base : nat) (b : list Node) : bool :=
  forallb (fun nd => forallb (fun kv => inside base (List.length b) (snd kv)) nd) b.
(* New cells with who put them there (zz_generated.deepcopy.go:87-104). *)
Definition owned (o : Owner) (b : list Node) : Heap := map (pair o) b.

(* ls is a way down from one of the values vs: reflect.DeepEqual, the encoder
   and DeepCopy follow pointers (zz_generated.deepcopy.go:87-104). *)
Fixpoint chain (h : Heap) (vs : list Val) (ls : list nat) : bool :=
  match ls with
  | [] => true
  | l :: r =>
      existsb (veq (VLoc l)) vs &&
      match nth_error h l with
      | Some (_, n) => chain h (map snd n) r
      | None => false
      end
  end.

(* The shared records of the controller: 0 is controller.safetyOptions
   (pkg/util/provider/machinecontroller/controller.go:232; its fields
   MachineControllerFrozen and APIserverInactiveStartTime,
   pkg/util/provider/options/types.go:111-116; the others are never written);
   1 is the package variable emptyMap
   (pkg/util/provider/machinecontroller/machine_util.go:62);
   2 is the VolumeAttachmentHandler with its list of workers
   (pkg/util/provider/drain/volume_attachment.go:17-28). *)
Definition shared0 : Heap :=
  [ (Common, [("MachineControllerFrozen", VData 0); ("APIserverInactiveStartTime", VData 0)]);
    (Common, []);
    (Common, [("workers", VData 0)]) ].

(* What one statement does (e.g. machine_util.go:271-347 has all the kinds);
   None is a choice that does not fit the statement.  Writing through a nil
   map or pointer is a panic in Go and no step here; delete on a nil map
   does nothing. *)
Definition pexec (i : nat) (p : Prim) (c : Choice) (e : Env) (h : Heap)
  : option (Env * Heap * list Event) :=
  match p, c with
  | New x, Blk b v [] =>
      if closed (List.length h) b && inside (List.length h) (List.length b) v
      then Some (set e x v, (h ++ owned (Of i) b)%list, []) else None
  | DeepCopy x y, Blk b v ls =>
      if closed (List.length h) b && inside (List.length h) (List.length b) v
         && chain h [e y] ls
      then Some (set e x v, (h ++ owned (Of i) b)%list, map (Read i) ls) else None
  | Make _ x, Go => Some (set e x (VLoc (List.length h)), (h ++ [(Of i, [])])%list, [])
  | Cached x, Pick (VLoc l) =>
      match nth_error h l with
      | Some (Cache, _) => Some (set e x (VLoc l), h, [])
      | _ => None
      end
  | Cached x, Pick VNil => Some (set e x VNil, h, [])
  | Global x l, Go =>
      match nth_error shared0 l with
      | Some _ => Some (set e x (VLoc l), h, [])
      | None => None
      end
  | Let x y, Go => Some (set e x (e y), h, [])
  | Get x y f, Go =>
      match e y with
      | VLoc l =>
          match nth_error h l with
          | Some (_, n) => Some (set e x (look n f), h, [Read i l])
          | None => None
          end
      | _ => Some (set e x VNil, h, [])
      end
  | Elem x y, Pick v =>
      match e y with
      | VLoc l =>
          match nth_error h l with
          | Some (_, n) =>
              if existsb (fun kv => veq v (snd kv)) n
              then Some (set e x v, h, [Read i l]) else None
          | None => None
          end
      | _ => None
      end
  | Put y f x, Num k _ =>
      (* f = "*" is any key or index *)
      match e y with
      | VLoc l =>
          match nth_error h l with
          | Some (_, n) =>
              Some (e, store h l (put n (if String.eqb f "*" then k else f) (e x)), [Wrote i l])
          | None => None
          end
      | _ => None
      end
  | Data y f, Num k d =>
      match e y with
      | VLoc l =>
          match nth_error h l with
          | Some (_, n) =>
              Some (e, store h l (put n (if String.eqb f "*" then k else f) (VData d)), [Wrote i l])
          | None => None
          end
      | _ => None
      end
  | Drop y f, Num k _ =>
      match e y with
      | VLoc l =>
          match nth_error h l with
          | Some (_, n) =>
              Some (e, store h l (without n (if String.eqb f "*" then k else f)), [Wrote i l])
          | None => None
          end
      | _ => Some (e, h, [])
      end
  | Fields y p x q, Go =>
      match e y, e x with
      | VLoc l, VLoc m =>
          match nth_error h l, nth_error h m with
          | Some (_, n), Some (_, k) =>
              Some (e, store h l (copied n p k q), [Read i m; Wrote i l])
          | _, _ => None
          end
      | _, _ => None
      end
  | Append z y x, InPlace =>
      match e y with
      | VLoc l =>
          match nth_error h l with
          | Some (_, n) =>
              Some (set e z (VLoc l), store h l (n ++ [("*", e x)])%list, [Wrote i l])
          | None => None
          end
      | _ => None
      end
  | Append z y x, Fresh =>
      match e y with
      | VLoc l =>
          match nth_error h l with
          | Some (_, n) =>
              Some (set e z (VLoc (List.length h)),
                    (h ++ [(Of i, (n ++ [("*", e x)])%list)])%list, [Read i l])
          | None => None
          end
      | _ => Some (set e z (VLoc (List.length h)), (h ++ [(Of i, [("*", e x)])])%list, [])
      end
  | Send y, Path ls => if chain h [e y] ls then Some (e, h, map (Read i) ls) else None
  | SetShared l f, Num _ d =>
      match nth_error shared0 l, nth_error h l with
      | Some _, Some (_, n) => Some (e, store h l (put n f (VData d)), [Wrote i l])
      | _, _ => None
      end
  | LockedSet l f, Num _ d =>
      match nth_error shared0 l, nth_error h l with
      | Some _, Some (_, n) => Some (e, store h l (put n f (VData d)), [Locked i l])
      | _, _ => None
      end
  | _, _ => None
  end.

(* The programs still to run, the next one first (the statements after a call,
   e.g. machine.go:158-167). *)
Definition Kont := list Prog.

(* One step of worker i through its function (worker.Run calls
   a worker function, pkg/util/worker/worker.go:37-69, which calls the reconcile
   function once per key). *)
Definition wexec (i : nat) (c : Choice) (e : Env) (k : Kont) (h : Heap)
  : option (Env * Kont * Heap * list Event) :=
  match k with
  | [] => None
  | Skip :: r => match c with Go => Some (e, r, h, []) | _ => None end
  | Do p :: r =>
      match pexec i p c e h with
      | Some (e', h', ev) => Some (e', r, h', ev)
      | None => None
      end
  | Seq a b :: r =>
      match c with
      | Go => Some (e, a :: b :: r, h, [])
      | Cut => Some (e, a :: r, h, [])
      | _ => None
      end
  | Alt a b :: r =>
      match c with
      | Left => Some (e, a :: r, h, [])
      | Right => Some (e, b :: r, h, [])
      | _ => None
      end
  | Loop b :: r =>
      match c with
      | Again => Some (e, b :: Loop b :: r, h, [])
      | Stop => Some (e, r, h, [])
      | _ => None
      end
  end.

(* ---- the process: one memory, any number of workers, the informers ---- *)
(* The process (pkg/util/provider/machinecontroller/controller.go:307-316). *)
Record World := mkWorld { heap : Heap; env : nat -> Env; kont : nat -> Kont }.
(* A function starts without local variables
   (pkg/util/provider/machinecontroller/machine.go:136). *)
Definition empty : Env := fun _ => VNil.
(* The process when its workers start (controller.go:307). *)
Definition world0 : World := mkWorld shared0 (fun _ => empty) (fun _ => []).

(* What may happen next: the scheduler of Go and the informers decide
   (pkg/util/provider/machinecontroller/controller.go:278-316). *)
Inductive Move :=
| Work (i : nat) (c : Choice)   (* worker i goes on *)
| Begin (i : nat) (n : nat)     (* worker i, idle, takes up the n-th program *)
| Inform (b : list Node).       (* an informer stores what it has received *)

(* One worker's entry of the table of all workers (controller.go:307-316). *)
Definition at_ {A : Type} (f : nat -> A) (i : nat) (v : A) : nat -> A :=
  fun j => if Nat.eqb i j then v else f j.

(* One move (pkg/util/worker/worker.go:37-69). *)
Definition move (ps : list Prog) (m : Move) (w : World) : option (World * list Event) :=
  match m with
  | Work i c =>
      match wexec i c (env w i) (kont w i) (heap w) with
      | Some (e, k, h, ev) => Some (mkWorld h (at_ (env w) i e) (at_ (kont w) i k), ev)
      | None => None
      end
  | Begin i n =>
      match kont w i, nth_error ps n with
      | [], Some p => Some (mkWorld (heap w) (at_ (env w) i empty) (at_ (kont w) i [p]), [])
      | _, _ => None
      end
  | Inform b =>
      if closed (List.length (heap w)) b
      then Some (mkWorld (heap w ++ owned Cache b)%list (env w) (kont w), []) else None
  end.

(* The moves of a whole life of the process (controller.go:278-316) and
   everything its workers read and wrote. *)
Fixpoint run (ps : list Prog) (ms : list Move) (w : World) : option (World * list Event) :=
  match ms with
  | [] => Some (w, [])
  | m :: r =>
      match move ps m w with
      | Some (w', ev) =>
          match run ps r w' with
          | Some (w'', ev') => Some (w'', (ev ++ ev')%list)
          | None => None
          end
      | None => None
      end
  end.
