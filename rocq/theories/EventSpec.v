(** Vocabulary of the properties on watch events. *)
Require Import Coq.Lists.List Coq.Strings.String Coq.Bool.Bool.
From Verif Require Import EventModel.
Import ListNotations.
Open Scope string_scope.
Open Scope list_scope.

(** [p] is the controller of [o]: the first reference flagged as controller names it. *)
Definition Controls (kind : string) (p : Parent) (o : Obj) : Prop :=
  exists l1 r l2, ob_refs o = l1 ++ r :: l2 /\ (forall x, In x l1 -> rf_ctrl x = false) /\ rf_ctrl r = true /\
    rf_kind r = kind /\ rf_name r = pa_name p /\ rf_uid r = pa_uid p /\ pa_ns p = ob_ns o.

Definition Orphan (o : Obj) : Prop := forall r, In r (ob_refs o) -> rf_ctrl r = false.

Definition Selects (p : Parent) (o : Obj) : Prop :=
  ob_labels o <> [] /\ exists f, pa_sel p = SMatch f /\ f (ob_labels o) = true.

(** [p] may adopt [o]. *)
Definition Adopts (p : Parent) (o : Obj) : Prop :=
  ob_deleting o = false /\ Orphan o /\ pa_ns p = ob_ns o /\ Selects p o.

(** No two parents have the same namespace and name. *)
Definition uniqueKeys (ps : list Parent) : Prop := NoDup (map (fun p => (pa_ns p, pa_name p)) ps).

(** The selectors of a namespace are well formed. *)
Definition validIn (ns : string) (ps : list Parent) : Prop := forall p, In p ps -> pa_ns p = ns -> pa_sel p <> SInvalid.

(** Events of an informer. *)
Inductive Event := Added (o : Obj) | Updated (old cur : Obj) | Removed (o : Obj) (tombstone : bool).

(** What the API server guarantees of two versions of an object. *)
Definition versions (old cur : Obj) : Prop :=
  ob_ns old = ob_ns cur /\ (ob_deleting old = true -> ob_deleting cur = true) /\ (ob_rv old = ob_rv cur -> old = cur).
Definition proper (e : Event) : Prop := match e with Updated old cur => versions old cur | _ => True end.

(** The event concerns [p]: its child came, changed or went, or there is one to adopt. *)
Definition Concerns (kind : string) (p : Parent) (e : Event) : Prop :=
  match e with
  | Added o => Controls kind p o \/ Adopts p o
  | Updated old cur => old <> cur /\ (Controls kind p cur \/ Controls kind p old \/ (Adopts p cur /\ ~ Adopts p old))
  | Removed o _ => Controls kind p o
  end.

(** An owner change and a deletion reported at once, with the labels unchanged. *)
Definition hiddenMove (e : Event) : Prop :=
  match e with
  | Updated old cur => ob_deleting cur = true /\ ob_labels old = ob_labels cur /\ find rf_ctrl (ob_refs old) <> find rf_ctrl (ob_refs cur)
  | _ => False
  end.

Definition adopting (p : Parent) (e : Event) : Prop :=
  match e with Added o => Adopts p o | Updated _ cur => Adopts p cur | Removed _ _ => False end.
Definition eventNs (e : Event) : string :=
  match e with Added o => ob_ns o | Updated _ cur => ob_ns cur | Removed o _ => ob_ns o end.

(** The handlers of machine events and of MachineSet events, as registered. *)
Definition machineEvent (sets : list Parent) (e : Event) : list Eff :=
  match e with
  | Added m => onMachineAdded sets m
  | Updated old cur => onMachineUpdated sets old cur
  | Removed m t => onMachineDeleted sets (if t then DTomb m else DObj m)
  end.
Definition setEvent (get get' : string -> string -> option Parent) (deps : list Parent) (e : Event) : list Eff :=
  match e with
  | Added s => onSetAdded get deps s
  | Updated old cur => onSetUpdated get get' deps old cur
  | Removed s t => onSetDeleted get (if t then DTomb s else DObj s)
  end.
