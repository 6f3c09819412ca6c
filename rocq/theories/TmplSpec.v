(* What C45 and C68 claim, said without the functions of the model. *)
Require Import Coq.ZArith.ZArith Coq.NArith.NArith Coq.Lists.List Coq.Strings.String Coq.Bool.Bool.
From Verif Require Import MetaModel MetaSpec TmplModel.
Import ListNotations.
Open Scope string_scope.
Open Scope Z_scope.

(* Two templates are the same but for what may differ without a new MachineSet: the hash
   label, the kind of the class, node template and configuration (these are synced in place). *)
Definition SameTemplate (a b : Template) : Prop :=
  (forall k, k <> hashKey -> get k (t_labels a) = get k (t_labels b)) /\
  (forall k, get k (t_annotations a) = get k (t_annotations b)) /\
  t_meta a = t_meta b /\ t_group a = t_group b /\ t_class a = t_class b /\ t_provider a = t_provider b.

Definition wfT (t : Template) : Prop := isMap (t_labels t) /\ isMap (t_annotations t).

(* No label (but perhaps the hash) has an empty value. *)
Definition noEmpty (t : Template) : Prop := forall k v, In (k, v) (t_labels t) -> k <> hashKey -> v <> "".

Definition hasHash (t : Template) : Prop := In hashKey (keys (t_labels t)).

(* a was created before b, or at the same time with a name not after b's. *)
Definition Older (a b : TSet) : Prop :=
  s_ctime a < s_ctime b \/ (s_ctime a = s_ctime b /\ String.leb (s_name a) (s_name b) = true).

(* The labels satisfy the requirements of the selector. *)
Definition Matches (sel labels : Map) : Prop := forall k v, In (k, v) sel -> get k labels = Some v.
