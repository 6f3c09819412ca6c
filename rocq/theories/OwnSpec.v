(** Vocabulary of the ownership properties. *)
Require Import Coq.Lists.List Coq.Strings.String Coq.Bool.Bool.
From Verif Require Import OwnModel.
Import ListNotations.
Open Scope string_scope.
Open Scope list_scope.

(** [k=v] is the first entry for [k]. *)
Inductive has_label : list (string * string) -> string -> string -> Prop :=
| hl_here : forall k v r, has_label ((k, v) :: r) k v
| hl_next : forall k v a b r, a <> k -> has_label r k v -> has_label ((a, b) :: r) k v.

(** The labels meet every requirement of the selector. *)
Definition matches (sel labels : list (string * string)) : Prop := forall k v, In (k, v) sel -> has_label labels k v.

(** The controller recorded on an object: the first reference flagged as such. *)
Inductive controlled : list Owner -> nat -> Prop :=
| ct_here : forall u r, controlled (mkOwner u true :: r) u
| ct_next : forall x u r, controlled r u -> controlled (mkOwner x false :: r) u.
Definition owned (o : Obj) (u : nat) : Prop := controlled (o_owners o) u.
Definition orphan (o : Obj) : Prop := Forall (fun r => ow_ctrl r = false) (o_owners o).

(** Names identify objects. *)
Definition distinct (l : list Obj) : Prop := NoDup (map o_name l).

(** Every reconcile sees the current children, new children have fresh names, others
    do not create children owned by [me] and do not remove our finalizer. *)
Definition in_sync (me : nat) (w : World) (o : Op) : Prop :=
  let fresh n := ~ In n (map o_name (w_store w)) in
  match o with
  | OReconcile e valid cache news => cache = w_store w /\ NoDup news /\ Forall fresh news
  | OForeign c => fresh (o_name c) /\ ~ owned c me
  | OUnfinalize x => x <> DeleteFinalizerName
  | _ => True
  end.

Inductive run (me : nat) (tmpl : list (string * string)) : World -> list Op -> World -> Prop :=
| run_nil : forall w, run me tmpl w [] w
| run_cons : forall w o l w', in_sync me w o -> run me tmpl (step tmpl w o) l w' -> run me tmpl w (o :: l) w'.

(** The object is still stored under its name and uid. *)
Definition stored (store : list Obj) (o : Obj) : Prop := exists s, In s store /\ o_name s = o_name o /\ o_uid s = o_uid o.
(** A patch of it is lost, before or after it took effect. *)
Definition lost (f : Fault) (store : list Obj) (o : Obj) : Prop := f = FBefore \/ (f = FAfter /\ stored store o).
(** Claiming it fails: the parent is not being deleted, and either a child to be released
    could not be patched, or an orphan to be adopted could not: the parent is not live, the
    patch is lost, or another object has its name by now. *)
Definition claim_fails (me : nat) (deleting : bool) (l : Live) (f : Fault) (sel : list (string * string)) (store : list Obj) (o : Obj) : Prop :=
  deleting = false /\
  ((owned o me /\ ~ matches sel (o_labels o) /\ lost f store o) \/
   (orphan o /\ matches sel (o_labels o) /\ o_deleting o = false /\
     (l <> LFound me false \/ lost f store o \/ (In (o_name o) (map o_name store) /\ ~ stored store o)))).
