(** What the text form of provider errors should keep. *)
Require Import Coq.NArith.NArith Coq.Arith.Arith Coq.Lists.List Coq.Strings.String Coq.Strings.Ascii Coq.Bool.Bool.
Import ListNotations.
Open Scope list_scope.
Open Scope string_scope.

(** How often a character occurs. *)
Fixpoint occurs (a : ascii) (s : string) : nat :=
  match s with
  | EmptyString => 0
  | String b r => (if Ascii.eqb a b then 1 else 0) + occurs a r
  end.

(** Square brackets are balanced: nothing is closed before it was opened and everything
    is closed in the end. *)
Definition balanced (s : string) : Prop :=
  (forall p q, s = p ++ q -> occurs "]" p <= occurs "[" p) /\ occurs "]" s = occurs "[" s.

(** No square bracket. *)
Definition bracket_free (s : string) : Prop := occurs "]" s = 0 /\ occurs "[" s = 0.

(** The eighteen codes. *)
Definition named_code (c : N) : Prop := (c <= 17)%N.
