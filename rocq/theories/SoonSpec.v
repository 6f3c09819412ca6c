(** When a machine has to be looked at again. *)
Require Import Coq.ZArith.ZArith Coq.Lists.List Coq.Strings.String Coq.Bool.Bool.
From Verif Require Import CodesModel MachModel HealthModel LifeModel TellSpec SoonModel.
Import ListNotations.
Open Scope string_scope.
Open Scope list_scope.
Open Scope Z_scope.

(** A reconcile with results makes the same calls as one without. *)
Inductive same : rprog -> prog -> Prop :=
| same_done : forall d f, same (RDone d f) Done
| same_panic : same RPanic Panic
| same_later : forall d p q, same p q -> same (RLater d p) q
| same_do : forall c k k', (forall r, same (k r) (k' r)) -> same (RDo c k) (Do c k').

(** With answers that are [ok], the reconcile can return period [d] and an error or not. *)
Inductive returns (ok : Call -> Reply -> Prop) : rprog -> Z -> bool -> Prop :=
| ret_done : forall d f, returns ok (RDone d f) d f
| ret_later : forall x p d f, returns ok p d f -> returns ok (RLater x p) d f
| ret_do : forall c k r d f, ok c r -> returns ok (k r) d f -> returns ok (RDo c k) d f.

(** Any answer. *)
Definition any (c : Call) (r : Reply) : Prop := True.

(** Answers without an error: calls succeed, updates are stored; that a node is not there
    is no error. *)
Definition fine (c : Call) (r : Reply) : Prop :=
  match c with
  | CClass | CDrain _ _ | CNodeCond _ | CDelVA _ => r = RUnit
  | WMeta _ | WStatus _ => exists m, r = RObj m
  | CGetStatus _ | CDelete _ | CCreate _ | CInit _ => exists a b c, r = POk a b c
  | CDeleteNode _ => r = RUnit \/ exists e, r = RMissing e
  | CFindNode _ => (exists s, r = RStr s) \/ exists e, r = RErr e
  | CVolumes _ => (exists b, r = RBool b) \/ exists e, r = RMissing e
  | CLiveVA _ => exists b, r = RBool b
  | CNow => exists t, r = RTime t
  | _ => True
  end.

(** [q] is what is left of reconcile [p] after some answers. *)
Inductive reaches : rprog -> rprog -> Prop :=
| re_here : forall p, reaches p p
| re_later : forall x p q, reaches p q -> reaches (RLater x p) q
| re_do : forall c k r q, reaches (k r) q -> reaches (RDo c k) q.

(** Updates are stored, and the clock tells the time; all other answers are free. *)
Definition stored (c : Call) (r : Reply) : Prop :=
  match c with WMeta _ | WStatus _ => exists m, r = RObj m | CNow => exists t, r = RTime t | _ => True end.

(** The error can be read. *)
Definition readable (e : string) : Prop := snd (FromError e) = true.

(** After an error of a call in the deletion: errors that pass by are tried again after 5 s,
    others after a longer time. *)
Definition deletion_period (c : Call) (k : Reply -> rprog) : Prop :=
  match c with
  | CDelete _ => forall e resp d f, returns stored (k (PFail e resp)) d f -> f = true /\
      (passing e \/ code_is e cNotFound -> d = 5000) /\ (~ passing e -> ~ code_is e cNotFound -> d = 600000)
  | CGetStatus _ => forall e resp d f, returns stored (k (PFail e resp)) d f -> f = true /\
      (passing e \/ goes_on e -> d = 5000) /\ (readable e -> ~ passing e -> ~ goes_on e -> d = 180000) /\ (~ readable e -> d = 600000)
  | CDrain _ _ | CDeleteNode _ | CNodeCond _ => forall e d f, returns stored (k (RErr e)) d f -> f = true /\ d = 5000
  | CClass => forall e d f, (returns stored (k (RErr e)) d f -> f = true /\ d = 600000) /\ (returns stored (k (RMissing e)) d f -> f = true /\ d = 5000)
  | _ => True
  end.

(** The same for creation and health check. *)
Definition creation_period (c : Call) (k : Reply -> rprog) : Prop :=
  match c with
  | CCreate _ => forall e resp d f, returns stored (k (PFail e resp)) d f -> f = true /\
      (passing e -> d = 5000) /\ (~ passing e -> d = 180000)
  | CGetStatus _ => forall e resp d f, ~ goes_on e -> returns stored (k (PFail e resp)) d f -> f = true /\
      (passing e -> d = 5000) /\ (~ passing e -> d = 180000)
  | CInit _ => forall e resp d f, returns stored (k (PFail e resp)) d f -> f = true /\
      (readable e -> d = 5000) /\ (~ readable e -> d = 600000)
  | CSecret _ | CSync _ => forall e d f, e <> "conflict" -> returns stored (k (RErr e)) d f -> f = true /\ d = 5000
  | CMayFail _ => forall d f, returns stored (k (RBool false)) d f -> f = true /\ d = 5000
  | CNode _ => forall d f, returns stored (k (RNode NodeErr)) d f -> f = true /\ d = 5000
  | CFrozen => forall d f, returns stored (k (RBool true)) d f -> f = true /\ d = 600000
  | CClass => forall e d f, (returns stored (k (RErr e)) d f -> f = true /\ d = 600000) /\ (returns stored (k (RMissing e)) d f -> f = true /\ d = 5000)
  | _ => True
  end.

(** The states of an execution, the first one included. *)
Fixpoint zstates (cf : Cfg) (t : bool) (w : ZW) (ops : list ZOp) : list ZW :=
  w :: match ops with [] => [] | op :: r => zstates cf t (zstep cf t w op) r end.
Definition zrun (cf : Cfg) (t : bool) (w : ZW) (ops : list ZOp) : ZW := fold_left (zstep cf t) ops w.

(** Workers are prompt: a key in the queue is taken within [delta] milliseconds, a
    reconcile takes at most [eps]. *)
Definition prompt (delta eps : Z) (w : ZW) : Prop :=
  (z_queued w = true -> z_run w = None -> z_now w <= z_ready w + delta) /\
  (z_run w <> None -> z_now w <= z_began w + eps).

(** A machine that waits for its node, since [t0] (in seconds) and for at most [limit]. *)
Definition waiting (cf : Cfg) (m : MObj) (t0 limit : Z) : Prop :=
  mo_dt m = None /\ In MCM (mo_fins m) /\ nodeName m <> "" /\ cs_time (ms_cur (mo_status m)) = t0 /\
  ((phase m = "Pending" /\ limit = cf_creation cf) \/ (phase m = "Unknown" /\ limit = cf_health cf)).

(** The node does not come: it is not there, or its conditions are the known ones and not
    good enough. *)
Definition node_absent (cf : Cfg) (m : MObj) (a : NodeAns) : Prop :=
  a = NodeMissing \/
  exists conds crit, a = NodeIs conds crit /\ nodeConditionsHaveChanged (ms_conds (mo_status m)) conds = false /\
    isHealthy (cf_bad cf) (ms_conds (mo_status m)) = false.

(** What the surroundings do while the machine waits: the cache keeps showing it, the
    controller is not frozen, the class can be read, the node does not come, and the limit
    on replacements does not stand in the way. All other answers are free. *)
Definition undisturbed (cf : Cfg) (m : MObj) (w : ZW) (op : ZOp) : Prop :=
  match op with
  | ZSee v => v = Some m
  | ZStep r _ =>
      match z_run w with
      | Some (RDo CFrozen _) => r = RBool false
      | Some (RDo CClass _) => r = RUnit
      | Some (RDo (CNode _) _) => exists a, r = RNode a /\ node_absent cf m a
      | Some (RDo (CMayFail _) _) => r = RBool true
      | _ => True
      end
  | _ => True
  end.
Fixpoint quiet (cf : Cfg) (m : MObj) (w : ZW) (ops : list ZOp) : Prop :=
  match ops with
  | [] => True
  | op :: r => undisturbed cf m w op /\ quiet cf m (zstep cf false w op) r
  end.

(** Since [b] a status of [m] with phase Failed has been sent to the API server. *)
Definition failed_since (b : Z) (m : MObj) (w : ZW) : Prop :=
  exists t m' r, In (t, WStatus m', r) (z_log w) /\ b <= t /\ mo_name m' = mo_name m /\ phase m' = "Failed".
