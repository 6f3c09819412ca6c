(** Vocabulary for the labelling of adopted MachineSets. *)
Require Import Coq.ZArith.ZArith Coq.Lists.List Coq.Strings.String Coq.Bool.Bool.
From Verif Require Import MetaModel MetaSpec HashModel.
Import ListNotations.
Open Scope string_scope.
Open Scope list_scope.
Open Scope Z_scope.

Definition key : string := "machine-template-hash".

(** The machine counts for its set. *)
Definition counts (m : HMach) : Prop := hm_phase m <> "Failed" /\ hm_phase m <> "Terminating".

(** The write changes the selector of a set. *)
Definition narrows (b n : HSet) : Prop := hs_sel n <> hs_sel b.

(** Labels match a selector. *)
Definition matchesSel (sel labels : Map) : Prop := forall k v, get k sel = Some v -> get k labels = Some v.

(** The lister finds a machine under its own name. *)
Definition honest (a : Answers) : Prop := forall n i m, fst (a_mach a n i) = Some m -> hm_name m = n.

(** The machine has the label, in the list, in the cache when it is looked at again, or by one of
    the writes. *)
Definition labelled (hash : string) (a : Answers) (writes : list Call) (m : HMach) : Prop :=
  get key (hm_labels m) = Some hash \/
  (exists i m', fst (a_mach a (hm_name m) i) = Some m' /\ get key (hm_labels m') = Some hash) \/
  (exists b n, In (CMach b n) writes /\ hm_name n = hm_name m /\ get key (hm_labels n) = Some hash).

(** A map is changed at the key only. *)
Definition onlyKey (a b : Map) : Prop := forall k, k <> key -> get k a = get k b.
Definition onlyKeySel (a b : option Map) : Prop :=
  match a, b with Some x, Some y => onlyKey x y | None, None => True | _, _ => False end.
