(** What the distance of two texts and the suppression of writes should be. *)
Require Import Coq.ZArith.ZArith Coq.Lists.List Coq.Strings.String Coq.Strings.Ascii Coq.Bool.Bool.
From Verif Require Import MachModel.
Import ListNotations.
Open Scope string_scope.

(** One edit: insert, delete or replace one character. *)
Inductive edit : string -> string -> Prop :=
| e_ins : forall a c b, edit (a ++ b) (a ++ String c b)
| e_del : forall a c b, edit (a ++ String c b) (a ++ b)
| e_rep : forall a c d b, edit (a ++ String c b) (a ++ String d b).

(** [n] edits in a row. *)
Inductive edits : nat -> string -> string -> Prop :=
| es_0 : forall s, edits 0 s s
| es_S : forall n s t u, edits n s t -> edit t u -> edits (S n) s u.

(** The edit distance: the least number of edits. *)
Definition distance (s t : string) (n : nat) : Prop :=
  edits n s t /\ forall m, edits m s t -> (n <= m)%nat.
