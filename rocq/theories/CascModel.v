(** Deleting a whole tree: a MachineDeployment, its MachineSets, their machines and the VMs,
    with the passes of OwnModel.v at the two upper levels.
    Sources: pkg/controller/deployment.go 414-507, 553-613; machineset.go 457-604, 665-793;
    pkg/util/provider/machinecontroller/machine.go 636-760, machine_util.go 825-870.
    Simplified: every pass of a deployment or set sees the current children (OwnModel.v has
    lagging views), and of the passes over a machine only the points at which its finalizer and
    its VM change are kept (LifeModel.v has them in full). *)
Require Import Coq.Lists.List Coq.Strings.String Coq.Bool.Bool Coq.Arith.PeanoNat.
From Verif Require Import StatusModel OwnModel.
Import ListNotations.
Open Scope string_scope.
Open Scope list_scope.

(** A MachineSet: the object as the child of its deployment, its finalizers, its selector and
    the labels of its machine template. Read at pkg/controller/machineset.go 457-604. *)
Record TSet := mkTSet { t_obj : Obj; t_fins : list string; t_sel : list (string * string); t_tmpl : list (string * string) }.
(** A machine: the object as the child of its set, and its finalizers (machine_util.go 825-870). *)
Record TMach := mkTMach { m_obj : Obj; m_fins : list string }.
(** Everything: the deployment, all sets, all machines, and the VMs that exist, each by the name
    of the machine it was made for. Around pkg/controller/deployment.go 414-507 and
    machineset.go 457-604. *)
Record Tree := mkTree { t_dep : option Parent; t_sets : list TSet; t_machs : list TMach; t_vms : list nat }.

(** A set as the parent of its machines, pkg/controller/machineset.go 457-604. *)
Definition parentOf (s : TSet) : Parent := mkParent (o_uid (t_obj s)) (o_deleting (t_obj s)) (t_fins s) (t_sel s).

(** Finding by name: the API server (external); read at machineset.go 473 and deployment.go 426. *)
Definition findSet (n : nat) (l : list TSet) : option TSet := find (fun s => Nat.eqb (o_name (t_obj s)) n) l.
(** External: the API server; read at pkg/util/provider/machinecontroller/machine.go 153. *)
Definition findMach (n : nat) (l : list TMach) : option TMach := find (fun s => Nat.eqb (o_name (m_obj s)) n) l.

(** A set after a pass of its deployment: as before with the changed object, or new, with the
    selector and template labels it is made with (deployment_sync.go 268-300). *)
Definition asSet (shape : nat -> list (string * string) * list (string * string)) (l : list TSet) (o : Obj) : TSet :=
  match findSet (o_name o) l with
  | Some s => mkTSet o (t_fins s) (t_sel s) (t_tmpl s)
  | None => mkTSet o [] (fst (shape (o_name o))) (snd (shape (o_name o)))
  end.
(** A machine after a pass of its set (machineset.go 376-423 for a new one). *)
Definition asMach (l : list TMach) (o : Obj) : TMach :=
  match findMach (o_name o) l with Some m => mkTMach o (m_fins m) | None => mkTMach o [] end.

(** Which object. Around pkg/controller/deployment.go 414-507 and machineset.go 457-604. *)
Inductive Which := KDep | KSet (n : nat) | KMach (n : nat).

(** What can happen. deployment.go 414-507, machineset.go 457-604 and the machine controller;
    lines at each case of [act]. *)
Inductive TOp :=
| TDep (e : Env) (valid : bool) (shape : nat -> list (string * string) * list (string * string)) (news : list nat)
| TPass (n : nat) (e : Env) (valid : bool) (news : list nat)
| TDelete (k : Which)                  (* somebody asks for its deletion *)
| TAddFin (k : Which) (x : string)     (* others add a finalizer *)
| TDropFin (k : Which) (x : string)    (* others remove one *)
| TProtect (n : nat) | TVm (n : nat) | TVmGone (n : nat) | TRelease (n : nat)
| TForeignSet (s : TSet) | TForeignMach (m : TMach).

(** An object marked for deletion, and one with other finalizers (API server, external; called at
    deployment.go 567, machineset.go 680). *)
Definition marked (o : Obj) : Obj := mkObj (o_name o) (o_uid o) (o_owners o) (o_labels o) true.
(** Changing one set (API server, external; called at machineset.go 769-793). *)
Definition onSet (n : nat) (f : TSet -> TSet) (l : list TSet) : list TSet :=
  map (fun s => if Nat.eqb (o_name (t_obj s)) n then f s else s) l.
(** Changing one machine (API server, external; called at machine_util.go 825-870). *)
Definition onMach (n : nat) (f : TMach -> TMach) (l : list TMach) : list TMach :=
  map (fun s => if Nat.eqb (o_name (m_obj s)) n then f s else s) l.
(** New finalizers of a deployment, a set and a machine (API server, external; called at
    deployment.go 607, machineset.go 784, machine_util.go 831, 853). *)
Definition finP (f : list string -> list string) (p : Parent) : Parent := mkParent (p_uid p) (p_deleting p) (f (p_finalizers p)) (p_sel p).
(** machineset.go 784. *)
Definition finS (f : list string -> list string) (s : TSet) : TSet := mkTSet (t_obj s) (f (t_fins s)) (t_sel s) (t_tmpl s).
(** machine_util.go 831, 853. *)
Definition finM (f : list string -> list string) (m : TMach) : TMach := mkTMach (m_obj m) (f (m_fins m)).
(** Changing finalizers of the object [k] (API server, external; called at
    deployment.go 607, machineset.go 784, machine_util.go 831, 853). *)
Definition refin (k : Which) (f : list string -> list string) (w : Tree) : Tree :=
  match k with
  | KDep => mkTree (option_map (finP f) (t_dep w)) (t_sets w) (t_machs w) (t_vms w)
  | KSet n => mkTree (t_dep w) (onSet n (finS f) (t_sets w)) (t_machs w) (t_vms w)
  | KMach n => mkTree (t_dep w) (t_sets w) (onMach n (finM f) (t_machs w)) (t_vms w)
  end.

(** One change, before the API server removes what is to go. [dl]: the labels of the sets that
    the deployment makes. deployment.go 414-507 ([TDep]), machineset.go 457-604 ([TPass]);
    machine.go 524-560 and machine_util.go 825-845 ([TProtect], before a VM is made: [TVm]);
    machine_util.go 1296-1360 ([TVmGone]: the provider confirms the deletion of the VM, which is
    only asked for if the machine is being deleted, C59); machine.go 748-756 and machine_util.go
    847-870 ([TRelease], only after that, C24). *)
Definition act (dl : list (string * string)) (w : Tree) (op : TOp) : Tree :=
  match op with
  | TDep e valid shape news =>
      match t_dep w with
      | None => w
      | Some p =>
          let objs := map t_obj (t_sets w) in
          let '(q, s) := reconcileDeployment e valid p (p_finalizers p) objs objs dl news in
          mkTree (Some (finP (fun _ => q) p)) (map (asSet shape (t_sets w)) s) (t_machs w) (t_vms w)
      end
  | TPass n e valid news =>
      match findSet n (t_sets w) with
      | None => w
      | Some x =>
          let objs := map m_obj (t_machs w) in
          let '(q, s) := reconcileSet e valid (parentOf x) (t_fins x) objs objs (t_tmpl x) news in
          mkTree (t_dep w) (onSet n (finS (fun _ => q)) (t_sets w)) (map (asMach (t_machs w)) s) (t_vms w)
      end
  | TDelete KDep => mkTree (option_map (fun p => mkParent (p_uid p) true (p_finalizers p) (p_sel p)) (t_dep w)) (t_sets w) (t_machs w) (t_vms w)
  | TDelete (KSet n) => mkTree (t_dep w) (onSet n (fun s => mkTSet (marked (t_obj s)) (t_fins s) (t_sel s) (t_tmpl s)) (t_sets w)) (t_machs w) (t_vms w)
  | TDelete (KMach n) => mkTree (t_dep w) (t_sets w) (onMach n (fun m => mkTMach (marked (m_obj m)) (m_fins m)) (t_machs w)) (t_vms w)
  | TAddFin k x => refin k (cons x) w
  | TDropFin k x => refin k (del x) w
  | TProtect n =>
      match findMach n (t_machs w) with
      | Some m => if o_deleting (m_obj m) then w else refin (KMach n) (fun l => if has DeleteFinalizerName l then l else DeleteFinalizerName :: l) w
      | None => w
      end
  | TVm n =>
      match findMach n (t_machs w) with
      | Some m => if has DeleteFinalizerName (m_fins m) && negb (o_deleting (m_obj m)) then mkTree (t_dep w) (t_sets w) (t_machs w) (n :: t_vms w) else w
      | None => w
      end
  | TVmGone n =>
      match findMach n (t_machs w) with
      | Some m => if o_deleting (m_obj m) then mkTree (t_dep w) (t_sets w) (t_machs w) (filter (fun v => negb (Nat.eqb v n)) (t_vms w)) else w
      | None => w
      end
  | TRelease n =>
      match findMach n (t_machs w) with
      | Some m => if o_deleting (m_obj m) && negb (existsb (Nat.eqb n) (t_vms w)) then refin (KMach n) (del DeleteFinalizerName) w else w
      | None => w
      end
  | TForeignSet s => mkTree (t_dep w) (t_sets w ++ [s]) (t_machs w) (t_vms w)
  | TForeignMach m => mkTree (t_dep w) (t_sets w) (t_machs w ++ [m]) (t_vms w)
  end.

(** The API server (external): an object that is being deleted is gone with its last finalizer.
    deployment.go 598-613, machineset.go 769-793, machine_util.go 847-870 rely on it. *)
Definition stays (deleting : bool) (fins : list string) : bool := negb deleting || match fins with [] => false | _ => true end.
(** External: the API server, as above; deployment.go 598-613, machineset.go 769-793. *)
Definition settle (w : Tree) : Tree :=
  mkTree (match t_dep w with Some p => settleParent p | None => None end)
    (filter (fun s => stays (o_deleting (t_obj s)) (t_fins s)) (t_sets w))
    (filter (fun m => stays (o_deleting (m_obj m)) (m_fins m)) (t_machs w)) (t_vms w).

(** One step. deployment.go 414-507, machineset.go 457-604 and the machine controller. *)
Definition tstep (dl : list (string * string)) (w : Tree) (op : TOp) : Tree := settle (act dl w op).
