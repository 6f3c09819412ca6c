(* What a user expects of the taint library (C33) and of the tainting of old
   nodes (C62). *)
Require Import List String Ascii Bool Arith.
From Verif Require Import MetaModel MetaSpec TaintModel.
Import ListNotations.
Open Scope string_scope.
Open Scope list_scope.

(* Decide whether two taints have the same key and effect. *)
Definition keDec (a b : Taint) : {ke a = ke b} + {ke a <> ke b}.
Proof.
  unfold ke. destruct (string_dec (tKey a) (tKey b)), (string_dec (tEffect a) (tEffect b));
    [left|right|right|right]; congruence.
Defined.

(* The entries of a list with another key or effect than [t], in order. *)
Definition others (t : Taint) (l : list Taint) : list Taint :=
  filter (fun x => if keDec x t then false else true) l.

(* The entries with the key and effect of [t]. *)
Definition alike (t : Taint) (l : list Taint) : list Taint :=
  filter (fun x => if keDec x t then true else false) l.

(* [t] was added or updated. *)
Definition Added (t : Taint) (l r : list Taint) (changed : bool) : Prop :=
  alike t r = [t] /\ others t r = others t l /\
  (changed = false <-> r = l).

(* [t] was removed. *)
Definition Removed (t : Taint) (l r : list Taint) (changed : bool) : Prop :=
  alike t r = [] /\ others t r = others t l /\
  (changed = false <-> r = l).

(* A text without the three separators. *)
Definition plain (s : string) : Prop :=
  contains "=" s = false /\ contains ":" s = false /\ contains "," s = false.

(* What is assumed of the validation functions of k8s.io/apimachinery: a name or
   label value they accept holds none of the separators. *)
Definition validators (qn lv : string -> bool) : Prop :=
  (forall s, qn s = true -> plain s) /\ (forall s, lv s = true -> plain s).

(* A taint that the API server accepts, without a time. *)
Definition validTaint (qn lv : string -> bool) (t : Taint) : Prop :=
  qn (tKey t) = true /\ lv (tValue t) = true /\
  (tEffect t = "NoSchedule" \/ tEffect t = "PreferNoSchedule" \/ tEffect t = "NoExecute") /\
  tTime t = None.

(* Resource versions identify the contents: if the object that was read has the
   stored version, it is the stored object. *)
Definition coherent (steps : list Around) : Prop :=
  Forall (fun a => forall srv o, arGet a srv = inl o ->
            oVersion o = oVersion (arOthers a srv) -> o = arOthers a srv) steps.

(* A node call that goes through undisturbed: the read is fresh, nobody else
   writes in between, the update does not fail. *)
Definition undisturbed (steps : list Around) : Prop :=
  exists a rest, steps = a :: rest /\
    (forall s, arGet a s = inl s) /\ (forall s, arOthers a s = s) /\ arFail a = None.

(* Every taint of [ts] is on [r], every taint with another key and effect is as
   in [l]. *)
Definition AllAdded (ts l r : list Taint) : Prop :=
  (forall t, In t ts -> In t r) /\
  (forall x, ~ In (ke x) (map ke ts) -> (In x r <-> In x l)) /\
  isTaintSet r.

(* None of [ts] is on [r], every other taint is as in [l]. *)
Definition AllRemoved (ts l r : list Taint) : Prop :=
  (forall x, In x r <-> In x l /\ ~ In (ke x) (map ke ts)).

(* The request to remove [t] means [x]: same key, and same effect if one is given. *)
Definition meant (t x : Taint) : Prop := tKey x = tKey t /\ (tEffect t = "" \/ tEffect x = tEffect t).

(* What a list of taint specs may ask for: a taint, or the removal of a key, of one
   effect or (with the empty effect) of all; and how it is written. *)
Inductive Ask := Want (t : Taint) | Drop (k e : string).
Definition askText (a : Ask) : string :=
  match a with
  | Want t => (tKey t ++ "=" ++ tValue t ++ ":" ++ tEffect t)%string
  | Drop k e => if string_dec e "" then (k ++ "-")%string else (k ++ ":" ++ e ++ "-")%string
  end.
Definition wanted (l : list Ask) : list Taint := flat_map (fun a => match a with Want t => [t] | _ => [] end) l.
Definition dropped (l : list Ask) : list Taint :=
  flat_map (fun a => match a with Drop k e => [mkTaint k "" e None] | _ => [] end) l.
Definition goodAsk (qn lv : string -> bool) (a : Ask) : Prop :=
  match a with Want t => validTaint qn lv t | Drop k e => plain k /\ plain e end.
