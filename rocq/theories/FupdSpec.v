(** Vocabulary of writing finalizers. *)
Require Import Coq.Lists.List Coq.Strings.String Coq.Bool.Bool.
From Verif Require Import FupdModel.
Import ListNotations.
Open Scope string_scope.
Open Scope list_scope.

Definition our_name : string := "machine.sapcloud.io/machine-controller-manager".
(** The stored object has (has no longer) the controllers' finalizer; an object that is gone has
    none. *)
Definition holds (s : option Ob) : Prop := exists o, s = Some o /\ In our_name (f_fins o).
(** Others' finalizers. *)
Definition others (o : Ob) (f : string) : Prop := In f (f_fins o) /\ f <> our_name.
(** Nobody else does anything and every call goes through. *)
Definition quiet (a : Attempt) : Prop := (forall s, a_before a s = s) /\ (forall s, a_between a s = s) /\ a_get a = true /\ a_put a = true.
(** An object that is read again with the same version is the same. *)
Definition versioned (view o : Ob) : Prop := f_rv view = f_rv o -> view = o.
