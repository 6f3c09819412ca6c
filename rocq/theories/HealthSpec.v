(** What the health check should do. *)
Require Import Coq.ZArith.ZArith Coq.Lists.List Coq.Strings.String Coq.Strings.Ascii Coq.Bool.Bool.
From Verif Require Import MachModel.
Import ListNotations.
Open Scope string_scope.
Open Scope list_scope.
Open Scope Z_scope.

(** No comma in the text. *)
Definition nocomma (t : string) : Prop := forall a b, t <> (a ++ "," ++ b)%string.

(** [t] is an element of the comma-separated list [l]. *)
Definition element (t l : string) : Prop :=
  nocomma t /\
  exists p q, l = (p ++ t ++ q)%string /\ (p = "" \/ exists p', p = (p' ++ ",")%string) /\ (q = "" \/ exists q', q = ("," ++ q')%string).

(** The conditions say that the node is healthy: there are some, none says that the
    kubelet is not ready, none of the listed problems is reported. *)
Definition no_problem (bad : string) (conds : list NCond) : Prop :=
  conds <> [] /\
  (forall c, In c conds -> nc_type c = "Ready" -> nc_status c = "True") /\
  (forall c, In c conds -> element (nc_type c) bad -> nc_status c = "False").

(** The phase the machine has in a status. *)
Definition phase_of (s : MStatus) : string := cs_phase (ms_cur s).

(** Type by type the two lists report the same. *)
Definition agrees (a b : list NCond) : Prop :=
  forall t s, (exists c, In c a /\ nc_type c = t /\ nc_status c = s) <-> (exists c, In c b /\ nc_type c = t /\ nc_status c = s).
