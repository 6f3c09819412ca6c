(** Vocabulary of the properties on copying the template to machines. *)
Require Import Coq.Arith.Arith Coq.Lists.List Coq.Bool.Bool.
From Verif Require Import SyncModel.
Import ListNotations.

(** The cache shows the version of machine [i] that the API server has. *)
Definition current (w : W) (i : nat) : Prop :=
  match w_srv w i, w_cch w i with
  | Some o, Some c => ob_rv (en_obj c) = ob_rv o
  | None, None => True
  | _, _ => False
  end.

(** Nothing is left to do: the key is not queued, every event of machines below [n] arrived. *)
Definition quiet (n : nat) (w : W) : Prop := w_queued w = false /\ forall i, i < n -> current w i.

(** The machine at the API server has what the MachineSet asks for. *)
Definition follows (s : Spc) (o : Obj) : Prop :=
  (ob_active o = true -> sp_tmpl (ob_spc o) = sp_tmpl s /\ sp_conf (ob_spc o) = sp_conf s) /\
  sp_kind (ob_spc o) = sp_kind s.

(** A world as after the start of the controller: the cache holds versions the API
    server had or has, the key is queued. *)
Definition fresh (n : nat) (w : W) : Prop :=
  w_queued w = true /\
  (forall i c, w_cch w i = Some c -> en_ptr c < w_next w) /\
  (forall i c, w_cch w i = Some c -> ob_rv (en_obj c) <= w_rv w) /\
  (forall i o, w_srv w i = Some o -> ob_rv o <= w_rv w) /\
  (forall i c o, w_cch w i = Some c -> w_srv w i = Some o ->
     ob_rv (en_obj c) <= ob_rv o /\ (ob_rv (en_obj c) = ob_rv o -> en_obj c = o)).

(** No update call is refused for another reason than a conflict. *)
Definition never_refused (o : Op) : Prop :=
  match o with Outside _ => True | Reconcile e => forall k, en_api e k <> ARefused end.

Definition run (n : nat) (w : W) (ops : list Op) : W := fold_left (step n) ops w.

(** Everything but the copied parts is the same. *)
Definition same_rest (a b : option Obj) : Prop :=
  match a, b with
  | Some x, Some y => ob_rest x = ob_rest y /\ ob_active x = ob_active y
  | None, None => True
  | _, _ => False
  end.
