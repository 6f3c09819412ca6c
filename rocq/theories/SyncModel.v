(** Copying node template, configuration and class kind of a MachineSet to its machines.
    Models pkg/controller/machineset_util.go 85-204, machineset.go 512-539 and
    848-874, with the informer cache they write to.
    Simplifications: node template, configuration and class kind are numbers, equal
    when apiequality.Semantic.DeepEqual says so; all machines of the cache belong to
    the MachineSet (the claim is in OwnModel); machines are numbered. *)
Require Import Coq.Arith.Arith Coq.Lists.List Coq.Bool.Bool.
Import ListNotations.

(** pkg/apis/machine/v1alpha1/machine_types.go 52-73: the copied parts of the spec. *)
Record Spc := mkSpc { sp_tmpl : nat; sp_conf : nat; sp_kind : nat }.

(** A Machine object (pkg/apis/machine/v1alpha1/machine_types.go 36-73): resource
    version, copied parts, whether the phase is neither Failed nor Terminating
    (pkg/util/provider/machineutils/utils.go 109-111), everything else. *)
Record Obj := mkObj { ob_rv : nat; ob_spc : Spc; ob_active : bool; ob_rest : nat }.

(** An entry of the informer cache (k8s.io/client-go, external; read at
    pkg/controller/machineset.go 512): the object and which copy of it this is. *)
Record Ent := mkEnt { en_ptr : nat; en_obj : Obj }.

(** API server, cache, next copy, newest resource version (one counter for all objects),
    spec of the MachineSet, and whether its key waits in the work queue (pkg/controller/machineset.go 311-318). *)
Record W := mkW { w_srv : nat -> option Obj; w_cch : nat -> option Ent; w_next : nat; w_rv : nat; w_set : Spc; w_queued : bool }.

(** Function update; as used for the stores of pkg/controller/machineset.go 848-874. *)
Definition put {A} (f : nat -> A) (i : nat) (x : A) : nat -> A := fun j => if Nat.eqb j i then x else f j.

(** What happens beside the reconcile: the watch delivers the newest version of a
    machine (machineset.go 208-268: the key of the MachineSet is queued; 272-308 on
    deletion), somebody writes or creates a machine, a machine disappears, the MachineSet changes
    (139-159). *)
Inductive Ev := Deliver (i : nat) | Ext (i : nat) (s : Spc) (a : bool) (r : nat)
| New (i : nat) (s : Spc) (a : bool) (r : nat) | Gone (i : nat) | NewSpec (s : Spc).

(** One such event; pkg/controller/machineset.go 139-308. *)
Definition event (w : W) (e : Ev) : W :=
  match e with
  | Deliver i =>
      mkW (w_srv w) (put (w_cch w) i (match w_srv w i with Some o => Some (mkEnt (w_next w) o) | None => None end))
          (S (w_next w)) (w_rv w) (w_set w) true
  | Ext i s a r =>
      match w_srv w i with
      | Some o => mkW (put (w_srv w) i (Some (mkObj (S (w_rv w)) s a r))) (w_cch w) (w_next w) (S (w_rv w)) (w_set w) (w_queued w)
      | None => w
      end
  | New i s a r =>
      match w_srv w i with
      | Some _ => w
      | None => mkW (put (w_srv w) i (Some (mkObj (S (w_rv w)) s a r))) (w_cch w) (w_next w) (S (w_rv w)) (w_set w) (w_queued w)
      end
  | Gone i => mkW (put (w_srv w) i None) (w_cch w) (w_next w) (w_rv w) (w_set w) (w_queued w)
  | NewSpec s => mkW (w_srv w) (w_cch w) (w_next w) (w_rv w) s true
  end.

(** Outcome of an update call beyond conflicts: answered, refused without effect, or
    carried out with the answer lost. Called at pkg/controller/machineset.go 862. *)
Inductive Api := AOk | ARefused | ALost.

(** Result of a call as the code sees it; pkg/controller/machineset.go 851-871. *)
Inductive Res := ROk | RConflict | RErr.

(** Equality of the copied parts; pkg/controller/machineset_util.go 142, 187, 198. *)
Definition spc_eqb (a b : Spc) : bool :=
  Nat.eqb (sp_tmpl a) (sp_tmpl b) && Nat.eqb (sp_conf a) (sp_conf b) && Nat.eqb (sp_kind a) (sp_kind b).

(** The API server's part of an update (optimistic concurrency, external), called at
    pkg/controller/machineset.go 862: the status (and so [ob_active]) is not written; an
    update without change does not raise the version. *)
Definition update (w : W) (i : nat) (o : Obj) (a : Api) : W * Res :=
  match a with
  | ARefused => (w, RErr)
  | _ =>
      match w_srv w i with
      | None => (w, RErr)
      | Some s =>
          if negb (Nat.eqb (ob_rv s) (ob_rv o)) then (w, RConflict)
          else
            let same := spc_eqb (ob_spc s) (ob_spc o) && Nat.eqb (ob_rest s) (ob_rest o) in
            let w' := mkW (put (w_srv w) i (Some (mkObj (if same then ob_rv s else S (w_rv w)) (ob_spc o) (ob_active s) (ob_rest o))))
                          (w_cch w) (w_next w) (S (w_rv w)) (w_set w) (w_queued w) in
            (w', match a with AOk => ROk | _ => RErr end)
      end
  end.

(** The world around a reconcile: events before the cache is read and before the call
    is sent, and outcomes of calls, by position. Oracle for
    pkg/controller/machineset.go 851-864. *)
Record Env := mkEnv { en_ev : nat -> list Ev; en_api : nat -> Api }.

(** pkg/controller/machineset.go 848-874 UpdateMachineWithRetries with a change function that
    does nothing (machineset_util.go 99-101). [fuel]: attempts left of
    retry.DefaultBackoff (k8s.io/client-go, external: four); [k]: position in [e]. *)
Fixpoint attempts (e : Env) (fuel k : nat) (w : W) (i : nat) : W * nat * bool :=
  match fuel with
  | O => (w, k, false)
  | S fuel' =>
      let w1 := fold_left event (en_ev e k) w in
      match w_cch w1 i with
      | None => (w1, S k, false)
      | Some c =>
          let w2 := fold_left event (en_ev e (S k)) w1 in
          let '(w3, r) := update w2 i (en_obj c) (en_api e k) in
          match r with
          | ROk => (w3, S (S k), true)
          | RErr => (w3, S (S k), false)
          | RConflict => attempts e fuel' (S (S k)) w3 i
          end
      end
  end.

(** Which part is copied: syncMachinesNodeTemplates 85-110, syncMachinesConfig 151-176,
    syncMachinesClassKind 113-133 of pkg/controller/machineset_util.go. *)
Inductive Part := PTmpl | PConf | PKind.

(** pkg/controller/machineset_util.go 138-148, 181-193, 197-204: the object with the part of
    the MachineSet, and whether that is a change. *)
Definition copyPart (p : Part) (s : Spc) (o : Obj) : Obj * bool :=
  let m := ob_spc o in
  match p with
  | PTmpl => (mkObj (ob_rv o) (mkSpc (sp_tmpl s) (sp_conf m) (sp_kind m)) (ob_active o) (ob_rest o), negb (Nat.eqb (sp_tmpl s) (sp_tmpl m)))
  | PConf => (mkObj (ob_rv o) (mkSpc (sp_tmpl m) (sp_conf s) (sp_kind m)) (ob_active o) (ob_rest o), negb (Nat.eqb (sp_conf s) (sp_conf m)))
  | PKind => (mkObj (ob_rv o) (mkSpc (sp_tmpl m) (sp_conf m) (sp_kind s)) (ob_active o) (ob_rest o), negb (Nat.eqb (sp_kind s) (sp_kind m)))
  end.

(** Inactive machines are left out for the first two parts only:
    pkg/controller/machineset_util.go 92-94, 158-160. *)
Definition leftOut (p : Part) (o : Obj) : bool :=
  match p with PKind => false | _ => negb (ob_active o) end.

(** Writing through a pointer taken from the cache (pkg/controller/machineset_util.go 145,
    190, 199): the cache shows the change if it still holds this copy. *)
Definition writeThrough (w : W) (i : nat) (en : Ent) : W :=
  match w_cch w i with
  | Some c => if Nat.eqb (en_ptr c) (en_ptr en)
              then mkW (w_srv w) (put (w_cch w) i (Some en)) (w_next w) (w_rv w) (w_set w) (w_queued w) else w
  | None => w
  end.

(** One of the three loops; [l] the machines listed at the start, by pointer. The result
    has the listed machines as the pointers show them afterwards.
    pkg/controller/machineset_util.go 85-133, 151-176. *)
Fixpoint syncLoop (e : Env) (p : Part) (s : Spc) (k : nat) (w : W) (l : list (nat * Ent)) : W * nat * list (nat * Ent) * bool :=
  match l with
  | [] => (w, k, [], true)
  | (i, en) :: r =>
      let '(o', changed) := copyPart p s (en_obj en) in
      if leftOut p (en_obj en) || negb changed then
        let '(w', k', r', ok) := syncLoop e p s k w r in (w', k', (i, en) :: r', ok)
      else
        let en' := mkEnt (en_ptr en) o' in
        let '(w1, k1, ok1) := attempts e 4 k (writeThrough w i en') i in
        if ok1 then let '(w', k', r', ok) := syncLoop e p s k1 w1 r in (w', k', (i, en') :: r', ok)
        else (w1, k1, (i, en') :: r, false)
  end.

(** Machines 0, 1, ... below [n] as the cache lists them
    (pkg/controller/machineset.go 512). *)
Fixpoint listed (w : W) (n : nat) : list (nat * Ent) :=
  match n with
  | O => []
  | S m => listed w m ++ match w_cch w m with Some c => [(m, c)] | None => [] end
  end.

(** pkg/controller/machineset.go 457-587 as far as the three loops (525-539) go: the
    key leaves the queue, an error brings it back (pkg/util/worker/worker.go 44-60; that
    it is dropped after 15 errors in a row is in QueueModel). *)
Definition reconcile (n : nat) (e : Env) (w : W) : W :=
  let s := w_set w in
  let w0 := mkW (w_srv w) (w_cch w) (w_next w) (w_rv w) (w_set w) false in
  let '(w1, k1, l1, ok1) := syncLoop e PTmpl s 0 w0 (listed w n) in
  let fail w := mkW (w_srv w) (w_cch w) (w_next w) (w_rv w) (w_set w) true in
  if ok1 then
    let '(w2, k2, l2, ok2) := syncLoop e PConf s k1 w1 l1 in
    if ok2 then
      let '(w3, k3, l3, ok3) := syncLoop e PKind s k2 w2 l2 in
      if ok3 then w3 else fail w3
    else fail w2
  else fail w1.

(** A run: events and reconciles in any order.
    pkg/controller/machineset.go 139-308, 457-587. *)
Inductive Op := Outside (e : Ev) | Reconcile (e : Env).

(** pkg/controller/machineset.go 139-308, 457-587. *)
Definition step (n : nat) (w : W) (o : Op) : W :=
  match o with Outside e => event w e | Reconcile e => reconcile n e w end.
