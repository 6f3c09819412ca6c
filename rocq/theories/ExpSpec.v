(** Vocabulary of the expectation properties. *)
Require Import Coq.ZArith.ZArith Coq.Lists.List Coq.Strings.String Coq.Bool.Bool.
From Verif Require Import ExpModel.
Import ListNotations.
Open Scope string_scope.
Open Scope list_scope.
Open Scope Z_scope.

(** The call replaces or forgets what is expected for [k]. *)
Definition resets (k : string) (o : XOp) : Prop :=
  match o with
  | XExpectCreations _ k' _ | XExpectDeletions _ k' _ | XForget k' => k' = k
  | _ => False
  end.

(** How many creations were observed for [k]. *)
Fixpoint creations (k : string) (l : list XOp) : Z :=
  match l with
  | [] => 0
  | XCreationObserved k' :: r => (if String.eqb k' k then 1 else 0) + creations k r
  | _ :: r => creations k r
  end.

(** No reconcile finds expectations that are older than five minutes. *)
Fixpoint timely (w : GWorld) (l : list GOp) : Prop :=
  match l with
  | [] => True
  | o :: r =>
      match o with
      | GReconcile now _ => match x_exp (g_exp w) gkey with Some e => now - e_time e <= 300 * 1000000000 | None => True end
      | _ => True
      end /\ timely (gstep true w o) r
  end.
