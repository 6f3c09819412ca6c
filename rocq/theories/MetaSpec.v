(* What a user expects of the copy of node templates (C32), said with list
   membership only. *)
Require Import List String Bool Arith.
From Verif Require Import MetaModel.
Import ListNotations.
Open Scope string_scope.
Open Scope list_scope.

(* The keys of a map. *)
Definition keys (m : Map) : list string := map fst m.

(* A Go map holds a key at most once. *)
Definition isMap (m : Map) : Prop := NoDup (keys m).

(* [r] is [n] with every entry of [m] set, every key of [last] that [m] lacks
   removed, and every other entry as it was. [skip] is a key about which nothing
   is said. *)
Definition synced (skip : option string) (m last n r : Map) : Prop :=
  (forall k v, In (k, v) m -> Some k <> skip -> In (k, v) r) /\
  (forall k, ~ In k (keys m) -> In k (keys last) -> Some k <> skip -> ~ In k (keys r)) /\
  (forall k v, ~ In k (keys m) -> ~ In k (keys last) -> Some k <> skip ->
     (In (k, v) r <-> In (k, v) n)).

(* The key and effect of a taint. *)
Definition ke (t : Taint) : string * string := (tKey t, tEffect t).

(* A list of taints in which a key and effect occurs at most once. *)
Definition isTaintSet (l : list Taint) : Prop := NoDup (map ke l).

(* The same for taints, by key and effect. *)
Definition syncedTaints (m last n r : list Taint) : Prop :=
  (forall t, In t m -> In t r) /\
  (forall t, ~ In (ke t) (map ke m) -> In (ke t) (map ke last) -> ~ In (ke t) (map ke r)) /\
  (forall t, ~ In (ke t) (map ke m) -> ~ In (ke t) (map ke last) -> (In t r <-> In t n)).

(* The annotations of a node, a nil map being empty. *)
Definition annotationsOf (n : Node) : Map :=
  match nAnnotations n with None => [] | Some a => a end.

(* The template recorded on the node as applied last; none recorded counts as
   the empty one.  [None] if the record cannot be read. *)
Inductive recorded (dec : string -> option Template) (n : Node) : Template -> Prop :=
| RecNone : ~ In LastApplied (keys (annotationsOf n)) ->
    recorded dec n (mkTemplate [] [] [])
| RecSome : forall s t, In (LastApplied, s) (annotationsOf n) -> dec s = Some t ->
    recorded dec n t.

(* Node [n'] is node [n] brought in line with template [tp]. *)
Definition inLine (tp last : Template) (n n' : Node) : Prop :=
  synced (Some LastApplied) (tpAnnotations tp) (tpAnnotations last) (annotationsOf n) (annotationsOf n') /\
  synced None (tpLabels tp) (tpLabels last) (nLabels n) (nLabels n') /\
  syncedTaints (tpTaints tp) (tpTaints last) (nTaints n) (nTaints n').

(* A well-formed template and node: maps are maps, taint lists have no two
   entries for the same key and effect, and the template does not use the key
   that the controller keeps its own record under. *)
Definition goodTemplate (tp : Template) : Prop :=
  isMap (tpAnnotations tp) /\ isMap (tpLabels tp) /\ isTaintSet (tpTaints tp) /\
  ~ In LastApplied (keys (tpAnnotations tp)).

Definition goodNode (n : Node) : Prop :=
  isMap (annotationsOf n) /\ isMap (nLabels n) /\ isTaintSet (nTaints n).
