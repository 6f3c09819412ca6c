(** The safety pass of the machine controller over all classes and nodes, and the data and
    checks it shares with reconciles of machines.
    Models pkg/util/provider/machinecontroller/machine_safety.go 27-48, 154-300,
    machine_safety_util.go 15-35, machine_util.go 76-186, 222-232.
    Simplifications: listers of classes and nodes do not fail (lookups in memory); VM lists
    and maps are association lists; conversion of a class between versions does not fail;
    waiting for caches that were synced once does nothing (machine_safety.go 248-256). *)
Require Import Coq.ZArith.ZArith Coq.Lists.List Coq.Strings.String Coq.Bool.Bool.
From Verif Require Import WakeModel.
Import ListNotations.
Open Scope string_scope.
Open Scope list_scope.

(** A map of secrets. machine_util.go 121. *)
Definition Data := list (string * string).
(** Read and write of a Go map (external); machine_util.go 227. *)
Definition dget (k : string) (d : Data) : option string := option_map snd (find (fun p => String.eqb (fst p) k) d).
(** Assignment to a key, machine_util.go 227. *)
Definition dput (k v : string) (d : Data) : Data := (k, v) :: filter (fun p => negb (String.eqb (fst p) k)) d.
(** delete of a key, machine_safety.go 198. *)
Definition ddel (k : string) (d : Data) : Data := filter (fun p => negb (String.eqb (fst p) k)) d.

(** mergeDataMaps, machine_util.go 222-232, with one more map. *)
Definition mergeDataMaps (a b : Data) : Data := fold_left (fun out p => dput (fst p) (snd p) out) b (fold_left (fun out p => dput (fst p) (snd p) out) a []).

(** The answer of the secret lister, machine_util.go 177. *)
Inductive SecAns := SecIs (d : Data) | SecMissing | SecErr.

(** The outcome of collecting secret data: data (None: a nil map), or a panic: on an error
    the log call of 130 reads from the nil secret that shadows the reference. *)
Inductive SecOut := SData (d : option Data) | SPanic.

(** getSecretData with getSecret, machine_util.go 120-140, 171-186. A reference is [None] or
    the answer to its lookup. *)
Fixpoint getSecretData (acc : option Data) (refs : list (option SecAns)) : SecOut :=
  match refs with
  | [] => SData acc
  | None :: r => getSecretData acc r
  | Some SecErr :: _ => SPanic
  | Some SecMissing :: r => getSecretData acc r
  | Some (SecIs d) :: r => getSecretData (Some (mergeDataMaps (match acc with Some a => a | None => [] end) d)) r
  end.

(** What ValidateMachineClass reads of a class: secret references, finalizers, node template
    (capacity names; instance type, region, zone). machine_util.go 84-117, 143-168. *)
Record Tpl := mkTpl { tp_cap : list string; tp_type : string; tp_region : string; tp_zone : string }.
(** machine_util.go 84-117. *)
Record Cls := mkCls { cl_name : string; cl_secret : option SecAns; cl_creds : option SecAns; cl_fins : list string; cl_tpl : option Tpl }.

(** validateNodeTemplate, machine_util.go 143-168: no error. *)
Definition validTemplate (t : option Tpl) : bool :=
  match t with
  | None => true
  | Some t =>
      forallb (fun a => existsb (String.eqb a) (tp_cap t)) ["cpu"; "gpu"; "memory"] &&
      negb (String.eqb (tp_type t) "" || String.eqb (tp_region t) "" || String.eqb (tp_zone t) "")
  end.

(** Outcome of ValidateMachineClass: class with data; an error, with the class queued or not;
    a panic. machine_util.go 76-118. *)
Inductive VOut := VOk (d : option Data) | VErr (queueClass : bool) | VPanic.

(** ValidateMachineClass, machine_util.go 76-118; [None]: the class is not found. *)
Definition ValidateMachineClass (c : option Cls) : VOut :=
  match c with
  | None => VErr false
  | Some c =>
      match getSecretData None [cl_secret c; cl_creds c] with
      | SPanic => VPanic
      | SData d =>
          if negb (existsb (String.eqb "machine.sapcloud.io/machine-controller-manager") (cl_fins c)) then VErr true
          else if negb (validTemplate (cl_tpl c)) then VErr false
          else VOk d
      end
  end.

(** What the pass reads of a machine: provider ID and phase. machine_safety.go 264-270. *)
Record OM := mkOM { om_pid : string; om_phase : string }.

(** The calls of a pass: the list call for a class, the call to delete a VM of a class, the
    update of a node. machine_safety.go 237, 286; machine_safety_util.go 27. *)
Inductive OCall := ListVMs (cls : string) (d : option Data) | DeleteVM (cls id name : string) (d : option Data)
| UpdateNode (node : string) (annots : list (string * string)).

(** What the driver answers to the list call: VMs as pairs of ID and machine name, or an
    error. machine_safety.go 237-244. *)
Definition ListAns := option (list (string * string)).

(** machine_safety.go 258-274: whether the listed VM is left alone. *)
Definition leftAlone (id : string) (m : option OM) : bool :=
  match m with
  | None => false
  | Some m => String.eqb (om_pid m) id || String.eqb (om_phase m) "" || String.eqb (om_phase m) "CrashLoopBackOff"
  end.

(** checkMachineClass, machine_safety.go 227-300: the calls, and how it ends. [seen]: the
    machine in the cache when the VM of this ID is looked at. *)
Inductive End := EOk | EErr | EPanic.
(** checkMachineClass, machine_safety.go 227-300. *)
Definition checkMachineClass (seen : string -> string -> option OM) (c : Cls) (ans : ListAns) : list OCall * End :=
  match getSecretData None [cl_secret c; cl_creds c] with
  | SPanic => ([], EPanic)
  | SData d =>
      match ans with
      | None => ([ListVMs (cl_name c) d], EErr)
      | Some vms =>
          (ListVMs (cl_name c) d ::
           map (fun p => DeleteVM (cl_name c) (fst p) (snd p) d) (filter (fun p => negb (leftAlone (fst p) (seen (fst p) (snd p)))) vms), EOk)
      end
  end.

(** checkMachineClasses, machine_safety.go 209-224. *)
Fixpoint checkMachineClasses (seen : string -> string -> option OM) (cs : list (Cls * ListAns)) : list OCall * End :=
  match cs with
  | [] => ([], EOk)
  | (c, a) :: r =>
      match checkMachineClass seen c a with
      | (calls, EOk) => let '(calls', e) := checkMachineClasses seen r in (calls ++ calls', e)
      | x => x
      end
  end.

(** A node as the pass sees it: name, creation time, annotations.
    machine_safety.go 163-200. *)
Record ONode := mkON { on_name : string; on_created : Z; on_annots : list (string * string) }.

(** AnnotateNodesUnmanagedByMCM for one node, machine_safety.go 162-202: the annotations
    written, if any. How many machines have the label decides (getMachineFromNode). *)
Definition annotateNode (now timeout : Z) (machines : list WM) (n : ONode) : option (list (string * string)) :=
  match filter (fun m => match wm_node m with Some x => String.eqb x (on_name n) | None => false end) machines with
  | [] =>
      if negb (on_created n <? now - timeout)%Z then None
      else match dget NotManagedByMCM (on_annots n) with
           | Some _ => None
           | None => Some (dput NotManagedByMCM "1" (on_annots n))
           end
  | [_] => match dget NotManagedByMCM (on_annots n) with
           | None => None
           | Some _ => Some (ddel NotManagedByMCM (on_annots n))
           end
  | _ => None
  end.

(** AnnotateNodesUnmanagedByMCM, machine_safety.go 154-206. [fails]: whether the update of
    a node fails; [machines]: what is listed when a node is looked at. *)
Fixpoint AnnotateNodesUnmanagedByMCM (now timeout : Z) (machines : string -> list WM) (fails : string -> bool) (nodes : list ONode) : list OCall * End :=
  match nodes with
  | [] => ([], EOk)
  | n :: r =>
      match annotateNode now timeout (machines (on_name n)) n with
      | None => AnnotateNodesUnmanagedByMCM now timeout machines fails r
      | Some a =>
          if fails (on_name n) then ([UpdateNode (on_name n) a], EErr)
          else let '(calls, e) := AnnotateNodesUnmanagedByMCM now timeout machines fails r in (UpdateNode (on_name n) a :: calls, e)
      end
  end.

(** reconcileClusterMachineSafetyOrphanVMs, machine_safety.go 27-48: the calls, whether it
    panics, and the number of times the pass is queued again. *)
Definition orphanPass (now timeout : Z) (seen : string -> string -> option OM) (cs : list (Cls * ListAns))
    (machines : string -> list WM) (fails : string -> bool) (nodes : list ONode) : list OCall * bool * nat :=
  let '(c1, e1) := checkMachineClasses seen cs in
  match e1 with
  | EPanic => (c1, true, 1)
  | _ =>
      let '(c2, e2) := AnnotateNodesUnmanagedByMCM now timeout machines fails nodes in
      (c1 ++ c2, false, match e1 with EErr => 1 | _ => 0 end + match e2 with EErr => 1 | _ => 0 end + 1)
  end.
