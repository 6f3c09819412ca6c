(** Properties of a scale-down that names its machines: C108. *)
Require Import Coq.ZArith.ZArith Coq.Lists.List Coq.Strings.String Coq.Bool.Bool Coq.Arith.PeanoNat Coq.micromega.Lia.
From Verif Require Import MSetModel MSetSpec PickModel PickSpec PickProofs.
From Verif Require Types ScaleModel.
Import ListNotations.
Open Scope string_scope.
Open Scope list_scope.
Open Scope Z_scope.

(** C108: the autoscaler names machines of a set at rest and lowers the size by as many. Whatever follows,
    with any failing calls, no other machine is touched.
    Partial: one set, up-to-date views, and replacements made meanwhile are not Running yet (refuted below
    otherwise). *)
Theorem C108_only_named_partial : forall w o ops, at_rest w -> asks w o -> pEach (follows (p_next w)) (pstep w o) ops ->
  forall m, In m (p_ms w) -> ~ In (m_id m) (asked o) -> In m (p_ms (prun w (o :: ops))).
Proof. exact only_named. Qed.
Print Assumptions C108_only_named_partial.

(** C108: and one pass of each controller without failures gets the named machines deleted, whatever went
    wrong before; the set has the wanted size and the other machines are untouched.
    Partial: likewise. *)
Theorem C108_named_go_partial : forall w o ops api, at_rest w -> asks w o -> pEach (follows (p_next w)) (pstep w o) ops -> (forall i, a_delete api i = true) ->
  let w1 := prun w ((o :: ops) ++ [undisturbed]) in let w2 := pstep w1 (looks api w1) in
  p_size w2 = p_want w2 /\ p_want w2 = p_want w - Z.of_nat (List.length (asked o)) /\
  (forall m, In m (p_ms w2) -> In (m_id m) (asked o) -> m_deleting m = true) /\
  (forall m, In m (p_ms w) -> ~ In (m_id m) (asked o) -> In m (p_ms w2)).
Proof. exact named_go. Qed.
Print Assumptions C108_named_go_partial.

(** C108: without failures the first pass of the MachineSet controller after that of the MachineDeployment
    controller creates nothing. *)
Theorem C108_no_replacement : forall w o api, at_rest w -> asks w o ->
  let w1 := prun w [o; undisturbed] in let w2 := pstep w1 (looks api w1) in p_next w2 = p_next w.
Proof. exact direct. Qed.
Print Assumptions C108_no_replacement.

Definition pk_m (i : nat) : Mach := mkMach i "" "" "Running" (Z.of_nat i) false.
Definition pk_w : PW := mkPW 10 3 [] 3 [pk_m 0; pk_m 1; pk_m 2] 3.
Definition pk_ask : POp := PAsk 2 [2%nat].
Lemma pk_rest : at_rest pk_w.
Proof. split; [repeat constructor; cbn; intuition lia|]. repeat (split; [reflexivity|]). repeat constructor; cbn; try lia; discriminate. Qed.
Lemma pk_asks : asks pk_w pk_ask.
Proof. exists [2%nat]. split; [repeat constructor; auto|]. split; [intros i [<-|[]]; cbn; auto|reflexivity]. Qed.
Definition pk_half : list POp := [PDep (fun _ => false) true false].
Definition pk_long : list POp := pk_half ++ [looks allok (prun pk_w (pk_ask :: pk_half)); PPhase 3 "Pending"].
Example C108_case :
  at_rest pk_w /\ asks pk_w pk_ask /\ pEach (follows 3) (pstep pk_w pk_ask) pk_long /\
  (let w1 := prun pk_w (pk_ask :: pk_long ++ [undisturbed]) in let w2 := pstep w1 (looks allok w1) in
   map (fun m => (m_id m, m_deleting m)) (p_ms w2) = [(0, false); (1, false); (2, true); (3, true)]%nat) /\
  (let w1 := prun pk_w [pk_ask; undisturbed] in let w2 := pstep w1 (looks allok w1) in
   map (fun m => (m_id m, m_deleting m)) (p_ms w2) = [(0, false); (1, false); (2, true)]%nat).
Proof.
  split; [exact pk_rest|]. split; [exact pk_asks|]. split; [|split; vm_compute; reflexivity].
  cbn [pk_long pk_half app pEach follows looks]. repeat split; try exact Logic.I; try (vm_compute; reflexivity); cbn; lia.
Qed.

(** C108 fails when the MachineSet controller sees the new size before the marks: it deletes the oldest
    machine, which nobody named, and the named one as soon as it sees the mark, and makes up for one of
    them. *)
Theorem C108_late_marks_refuted : exists w o, at_rest w /\ asks w o /\
  let w1 := prun w [o; undisturbed] in let w2 := pstep w1 (PSet allok (p_size w1) (p_ms w)) in let w3 := pstep w2 (looks allok w2) in
  exists m m', In m (p_ms w) /\ ~ In (m_id m) (asked o) /\ In m' (p_ms w3) /\ m_id m' = m_id m /\ m_deleting m' = true /\
    map (fun m => (m_id m, m_deleting m)) (p_ms w3) = [(0, true); (1, false); (2, true); (3, false)]%nat.
Proof.
  exists pk_w, pk_ask. split; [exact pk_rest|]. split; [exact pk_asks|]. cbv zeta. exists (pk_m 0). eexists.
  split; [now left|]. split; [cbn; intuition discriminate|]. split; [vm_compute; left; reflexivity|]. repeat split.
Qed.
Print Assumptions C108_late_marks_refuted.

(** C108 fails when the new size is written late: the set has made up for the named machine, the replacement
    is Running, and then the oldest machine goes. *)
Theorem C108_late_size_refuted : exists w o ops, at_rest w /\ asks w o /\
  let w1 := prun w (o :: ops) in
  pEach (fun w o => follows 3 w o \/ o = PPhase 3 "Running") (pstep w o) ops /\
  exists m m', In m (p_ms w) /\ ~ In (m_id m) (asked o) /\ In m' (p_ms w1) /\ m_id m' = m_id m /\ m_deleting m' = true /\
    map (fun m => (m_id m, m_deleting m)) (p_ms w1) = [(0, true); (1, false); (2, true); (3, false)]%nat.
Proof.
  set (l1 := pk_half ++ [looks allok (prun pk_w (pk_ask :: pk_half)); PPhase 3 "Running"; undisturbed]).
  exists pk_w, pk_ask, (l1 ++ [looks allok (prun pk_w (pk_ask :: l1))]). split; [exact pk_rest|]. split; [exact pk_asks|]. cbv zeta. split.
  - unfold l1. cbn [pk_half app pEach follows looks]. repeat split; try exact Logic.I; try (now right); left; try exact Logic.I; split; vm_compute; reflexivity.
  - exists (pk_m 0). eexists. split; [now left|]. split; [cbn; intuition discriminate|]. split; [vm_compute; left; reflexivity|]. repeat split.
Qed.
Print Assumptions C108_late_size_refuted.

(** C108 fails during a rolling update: the size is taken from the largest set, wherever the named machine
    is. Here an old set of two machines, one of them named (priority 1), and the new set of three: the new
    set gives up a sound machine, the old set deletes the named one and makes another old one. *)
Definition pk_set (n : string) (t spec : Z) : Types.MachineSet := Types.mkMS n t false 1 1 spec spec spec spec (Types.AnnInt 4) (Types.AnnInt 5).
Definition pk_dep (replicas : Z) : Types.MachineDeployment := Types.mkMD replicas (Types.RollingUpdate (Some (Types.IOSInt 1)) (Some (Types.IOSInt 1))) None 5.
Theorem C108_rollout_refuted : exists old new sizes,
  ScaleModel.scale (pk_dep 4) (Some new) [old] = Some [(old, 2); (new, 3)] /\
  ScaleModel.scale (pk_dep 3) (Some new) [old] = Some sizes /\ sizes = [(new, 2); (old, 2)] /\
  let named := mkMach 1 "1" "" "Running" 1 false in
  let of_old := manageReplicas 2 false [pk_m 0; named] in let of_new := manageReplicas 2 false [pk_m 2; pk_m 3; pk_m 4] in
  pl_stale of_old = [named] /\ pl_surplus of_old = [] /\ pl_create of_old = 1%nat /\
  pl_stale of_new = [] /\ pl_surplus of_new = [pk_m 2] /\ pl_create of_new = 0%nat.
Proof.
  exists (pk_set "old" 0 2), (pk_set "new" 1 3). eexists. vm_compute. repeat split.
Qed.
Print Assumptions C108_rollout_refuted.
