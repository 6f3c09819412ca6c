(** Specification of the API-server safety check. *)
Require Import Coq.ZArith.ZArith Coq.Lists.List Coq.Strings.String Coq.Bool.Bool.
From Verif Require Import QueueModel SafeModel.
Import ListNotations.
Open Scope string_scope.
Open Scope list_scope.
Open Scope Z_scope.

(** The check ran and found a server unreachable. *)
Definition down (op : SOp) : Prop :=
  match op with SProbe c t _ _ _ => c = Broken \/ t = Broken | _ => False end.
(** The check ran and found both servers up. *)
Definition up (op : SOp) : Prop :=
  match op with SProbe c t _ _ _ => c <> Broken /\ t <> Broken | _ => False end.

(** Nobody outside the controller writes the machine [n], and the servers stay unreachable. *)
Definition outage (n : string) (op : SOp) : Prop :=
  match op with
  | SProbe c t _ _ _ => c = Broken \/ t = Broken
  | SEnv x => x_name x <> n
  | _ => True
  end.
