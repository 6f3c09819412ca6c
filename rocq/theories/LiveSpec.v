(** Specification of progress of deletion: reconciles whose calls succeed. *)
Require Import Coq.ZArith.ZArith Coq.Lists.List Coq.Strings.String Coq.Strings.Ascii Coq.Bool.Bool.
From Verif Require Import CodesModel MachModel LifeModel LifeSpec.
Import ListNotations.
Open Scope string_scope.
Open Scope list_scope.
Open Scope Z_scope.

(** Texts without the capital letters with which the stage markers begin, such as names
    of nodes and machines and "not found" messages that name them. *)
Definition plain (s : string) : Prop :=
  Forall (fun c => c <> "S"%char /\ c <> "D"%char /\ c <> "I"%char) (list_ascii_of_string s).

(** Answers of calls that do not fail. *)
Definition success (c : Call) (r : Reply) : Prop :=
  match c with
  | CClass | CNodeCond _ | CDrain _ _ | CDelVA _ => r = RUnit
  | CFindNode _ => (exists n, r = RStr n /\ plain n /\ n <> "") \/ (exists e, r = RErr e)
  | CGetStatus _ =>
      match r with
      | POk n _ _ => plain n /\ n <> ""
      | PFail text _ => In (s_code (fst (FromError text))) [cNotFound; cUnimplemented; cUninitialized]
      | _ => False
      end
  | CVolumes _ => (exists b, r = RBool b) \/ (exists e, r = RMissing e /\ plain e)
  | CLiveVA _ => exists b, r = RBool b
  | CDelete _ => vm_gone r
  | CDeleteNode _ => r = RUnit \/ exists e, r = RMissing e
  | _ => True
  end.

(** No volume attachments are left that are not being deleted. *)
Definition settled (env : Call -> Reply) : Prop :=
  forall m, env (CVolumes m) = RBool true -> env (CLiveVA m) = RBool false.

(** A reconcile run to its end with these answers and no failing write. *)
Fixpoint exec (env : Call -> Reply) (p : prog) (w : World) : World :=
  match p with
  | Done | Panic => w
  | Do c k => let '(w', r) := perform w QT c (env c) Applied (w_vms w) in exec env (k r) w'
  end.

(** One reconcile of the termination queue at a given time, with a cache that shows what
    is stored. *)
Definition onTime (now : Z) (w : World) : World :=
  mkW (w_obj w) (w_obj w) [] (w_next w) (w_uids w) now (w_tq w) (w_c w) (w_t w) (w_vms w) (w_vers w) (w_log w).
Definition round (cf : Cfg) (w : World) (r : Z * (Call -> Reply)) : World :=
  match w_obj w with
  | Some m => exec (snd r) (reconcileTermination cf m) (onTime (fst r) w)
  | None => onTime (fst r) w
  end.
Definition rounds (cf : Cfg) (w : World) (l : list (Z * (Call -> Reply))) : World := fold_left (round cf) l w.

(** The object is deleted, has ordinary names and still the controller's finalizer. *)
Definition deletable (m : MObj) : Prop := mo_dt m <> None /\ plain (mo_name m) /\ plain (nodeName m).


(** Times do not decrease. *)
Fixpoint inOrder (t : Z) (l : list (Z * (Call -> Reply))) : Prop :=
  match l with
  | [] => True
  | r :: l' => fst r >= t /\ inOrder (fst r) l'
  end.

(** Among the reconciles there are [n] without live volume attachments, the first more
    than half an hour after time [t], each other more than half an hour after the one
    before. *)
Inductive hits : Z -> list (Z * (Call -> Reply)) -> nat -> Prop :=
| hits_nil t : hits t [] 0
| hits_hit t r l n : settled (snd r) -> fst r > t + 1800 -> hits (fst r) l n -> hits t (r :: l) (S n)
| hits_skip t r l n : hits t l n -> hits t (r :: l) n.

(** There are [n] reconciles without live volume attachments, at any time. *)
Inductive settling : list (Z * (Call -> Reply)) -> nat -> Prop :=
| settling_nil : settling [] 0
| settling_hit r l n : settled (snd r) -> settling l n -> settling (r :: l) (S n)
| settling_skip r l n : settling l n -> settling (r :: l) n.

(** All calls of a reconcile succeed. *)
Definition succeeds (r : Z * (Call -> Reply)) : Prop := forall c, success c (snd r c).

(** The provider deletes the VM that exists. *)
Definition deletes (r : Z * (Call -> Reply)) : Prop := forall m, exists n p l, snd r (CDelete m) = POk n p l.
