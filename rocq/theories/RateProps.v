(** C29. The rate limit for replacing unhealthy machines. *)
Require Import Coq.ZArith.ZArith Coq.Lists.List Coq.Strings.String Coq.Bool.Bool Coq.Arith.PeanoNat Coq.micromega.Lia.
From Verif Require Import PermitModel PermitSpec PermitProofs RateModel RateSpec RateProofs.
Import ListNotations.
Open Scope string_scope.
Open Scope list_scope.
Open Scope nat_scope.

(** C29, for any number of workers, machines and MachineDeployments and any interleaving in
    which the clean-up of the permits disturbs nobody, writes that go through are acknowledged
    and the cache is not more than the wait behind: two machines of a MachineDeployment whose
    machines have a label "name" that
    were marked by the health check, and have been Failed or Terminating since, are the same
    machine. Missing: the cases of the refutations below, and the time between the removal of
    the old machine and the creation of the new one. *)
Theorem C29_one_at_a_time_partial : forall stale now workers ops dep n m m',
  prompt_run stale (rinit now workers) ops ->
  let w := rrun stale (rinit now workers) ops in
  labelled w dep n -> rm_dep (mach w m) = dep -> rm_dep (mach w m') = dep ->
  replaced (mach w m) -> replaced (mach w m') -> m = m'.
Proof.
  intros stale now workers ops dep n m m' P w L D1 D2 R1 R2.
  assert (V : RInv w) by (apply inv_rrun; [apply inv_rinit | exact P]).
  apply (j_one w V m m' n R1 R2); apply L; try assumption; apply nth_In; [exact (replaced_lt w m R1) | exact (replaced_lt w m' R2)].
Qed.
Print Assumptions C29_one_at_a_time_partial.

(** C29, the same histories: the limit is one per value of the label, whatever MachineDeployments
    the machines belong to.
    Partial: only these histories (C29_cleaned_permit_refuted). *)
Theorem C29_one_per_label_partial : forall stale now workers ops n m m',
  prompt_run stale (rinit now workers) ops ->
  let w := rrun stale (rinit now workers) ops in
  rm_name (mach w m) = Some n -> rm_name (mach w m') = Some n ->
  replaced (mach w m) -> replaced (mach w m') -> m = m'.
Proof.
  intros stale now workers ops n m m' P w N1 N2 R1 R2. apply (j_one w) with n; auto. apply inv_rrun; auto. apply inv_rinit.
Qed.
Print Assumptions C29_one_per_label_partial.

(** C29, the same histories: at most one worker per value of the label (one for all machines without it) is between getting the
    permit and releasing it, and a worker that is about to mark a machine has read its
    latest version as Unknown, or its write will not go through.
    Partial: only these histories (C29_cleaned_permit_refuted). *)
Theorem C29_alone_partial : forall stale now workers ops i j m m',
  prompt_run stale (rinit now workers) ops ->
  let w := rrun stale (rinit now workers) ops in
  target (worker w i) = Some m -> inside (worker w i) = true -> target (worker w j) = Some m' -> inside (worker w j) = true ->
  rm_md (mach w m) = rm_md (mach w m') -> i = j.
Proof. intros stale now workers ops i j m m' P w. apply alone. apply inv_rrun; auto. apply inv_rinit. Qed.
Print Assumptions C29_alone_partial.

(** C29, the same histories: only an Unknown machine is marked, and only while no machine with the same
    label is being replaced. Partial: only these histories (C29_slow_cache_refuted,
    C29_lost_answer_refuted, C29_gap_refuted). *)
Theorem C29_only_unknown_partial : forall stale now workers ops op m,
  prompt_run stale (rinit now workers) (ops ++ [op]) ->
  let w := rrun stale (rinit now workers) ops in
  let w' := rstep stale w op in
  rm_mark (mach w' m) <> rm_mark (mach w m) ->
  phaseAt (mach w m) (List.length (rm_hist (mach w m))) = Some "Unknown" /\
  (forall m' n, rm_name (mach w m) = Some n -> rm_name (mach w m') = Some n -> ~ replaced (mach w m')) /\ replaced (mach w' m).
Proof.
  intros stale now workers ops op m P w w'. 
  assert (P1 : prompt_run stale (rinit now workers) ops).
  { revert P. generalize (rinit now workers). induction ops as [| o ops IH]; intros r P; [exact I|].
    destruct P as (A & B). split; [exact A | apply IH; exact B]. }
  assert (V : RInv w) by (apply inv_rrun; [apply inv_rinit | exact P1]).
  assert (WRITE : forall i m0 v s, worker w i = WMark m0 v -> List.length (rm_hist (mach w m0)) = v ->
    rm_mark (mach (setW (setM w m0 (markFailed (mach w m0))) i s) m) <> rm_mark (mach w m) ->
    phaseAt (mach w m) (List.length (rm_hist (mach w m))) = Some "Unknown" /\
    (forall m' n, rm_name (mach w m) = Some n -> rm_name (mach w m') = Some n -> ~ replaced (mach w m')) /\
    replaced (mach (setW (setM w m0 (markFailed (mach w m0))) i s) m)).
  { clear w'. intros i m0 v s WK LV CH.
    assert (LM : m0 < List.length (r_ms w)) by (apply (j_tgt _ V i); rewrite WK; reflexivity).
    assert (E : mach (setW (setM w m0 (markFailed (mach w m0))) i s) m = if Nat.eqb m0 m then markFailed (mach w m0) else mach w m)
      by (apply mach_setM; exact LM).
    rewrite E in CH |- *. destruct (Nat.eqb_spec m0 m) as [EQ |NE]; [|exfalso; apply CH; reflexivity]. subst m0.
    destruct (j_ver _ V i m v) as (V1 & V2); try (rewrite WK; reflexivity).
    split; [rewrite LV; exact V2|]. split; [intros m' n N1 N2; apply (j_mark _ V i m v m' WK); rewrite (named_md _ _ N1); exact N2|].
    split; [cbn; lia|]. split; [cbn [markFailed rm_mark rm_hist]; rewrite app_length; cbn; lia|].
    intros u U1 U2. cbn [markFailed rm_mark rm_hist] in U1, U2. rewrite app_length in U2. cbn [List.length] in U2.
    assert (u = S (List.length (rm_hist (mach w m)))) as -> by lia. left. cbn [phaseAt markFailed rm_hist].
    rewrite app_nth2, Nat.sub_diag by lia. reflexivity. }
  unfold w'. destruct op; cbn [rstep]; intros CH;
  repeat match goal with
  | H : rm_mark (mach ?x m) <> rm_mark (mach w m) |- _ => match x with context [match ?y with _ => _ end] => destruct y eqn:? end
  end; try (exfalso; apply CH; reflexivity);
  try match goal with HB : _ && _ = true, HW : worker w _ = WMark _ _ |- _ =>
    apply andb_prop in HB; destruct HB as (_ & HB); apply Nat.eqb_eq in HB; exact (WRITE _ _ _ _ HW HB CH) end.
  - (* somebody else *) exfalso. apply CH. destruct (Nat.lt_ge_cases m0 (List.length (r_ms w))) as [L | L].
    + rewrite mach_setM by exact L. destruct (Nat.eqb_spec m0 m) as [<- |]; reflexivity.
    + unfold mach, setM; cbn [r_ms]. rewrite upd_out by exact L. reflexivity.
  - (* new *) exfalso. apply CH. unfold mach; cbn [r_ms]. destruct (Nat.lt_ge_cases m (List.length (r_ms w))) as [L | L].
    + rewrite app_nth1 by exact L. reflexivity.
    + rewrite app_nth2 by exact L. rewrite (nth_overflow (r_ms w)) by exact L.
      destruct (m - List.length (r_ms w)) as [| [|]]; reflexivity.
  - (* see *) exfalso. apply CH. destruct (Nat.lt_ge_cases m0 (List.length (r_ms w))) as [L | L].
    + rewrite mach_setM by exact L. destruct (Nat.eqb_spec m0 m) as [<- |]; reflexivity.
    + unfold mach, setM; cbn [r_ms]. rewrite upd_out by exact L. reflexivity.
Qed.
Print Assumptions C29_only_unknown_partial.

Definition hour : Z := 3600%Z.
(** Two machines of one MachineDeployment that have become Unknown, as the cache shows. *)
Definition setup : list ROp :=
  [RNew "d" (Some "md"); REnv 0 (Some "Unknown"); RSee 0; RNew "d" (Some "md"); REnv 1 (Some "Unknown"); RSee 1].
(** A worker gets to the point where it may mark the machine. *)
Definition enter (i m : nat) : list ROp := [RStart i m; RRegister i; RTry i; RSend i; RList i].
Definition leave (i : nat) : list ROp := [RRelease i; RRecv i].

(** The normal course: the second worker finds the first machine Failed; once the first
    machine is gone and its successor runs, the second machine is marked. *)
Definition course : list ROp :=
  setup ++ [RStart 1 1] ++ enter 0 0 ++ [RRegister 1; RTry 1; RSend 1; RWrite 0 true true; RSeen 0; RSee 0; RSeen 0] ++ leave 0 ++
  [RSend 1; RList 1] ++ leave 1 ++
  [REnv 0 (Some "Terminating"); RSee 0; RNew "d" (Some "md"); REnv 2 (Some ""); RSee 2; REnv 0 None; RSee 0; REnv 2 (Some "Running"); RSee 2] ++
  enter 1 1 ++ [RWrite 1 true true].
Example C29_case : prompt_run hour (rinit 0 2) course /\ labelled (rrun hour (rinit 0 2) course) "d" "md" /\
  replaced (mach (rrun hour (rinit 0 2) course) 1) /\
  worker (rrun hour (rinit 0 2) (firstn 23 course)) 1 = WOut /\ replaced (mach (rrun hour (rinit 0 2) (firstn 23 course)) 0).
Proof.
  split; [vm_compute; tauto|]. split; [intros x; vm_compute; intuition (subst; reflexivity)|]. split; [|split; [vm_compute; reflexivity|] ].
  - split; [vm_compute; auto|]. split; [vm_compute; auto|]. intros v A B. vm_compute in A, B. assert (v = 2) as -> by lia. left. vm_compute. reflexivity.
  - split; [vm_compute; auto|]. split; [vm_compute; auto|]. intros v A B. vm_compute in A, B. assert (v = 2) as -> by lia. left. vm_compute. reflexivity.
Qed.

(** Is a machine of the state replaced? For examples. *)
Definition replacedb (x : RM) : bool :=
  match rm_mark x with
  | O => false
  | S n => Nat.leb (S n) (List.length (rm_hist x)) &&
      forallb (fun p => match p with Some ph => String.eqb ph "Failed" || String.eqb ph "Terminating" | None => false end) (skipn n (rm_hist x))
  end.
Lemma replacedb_true x : replacedb x = true -> replaced x.
Proof.
  unfold replacedb, replaced. destruct (rm_mark x) as [| n] eqn:M; [discriminate|]. intros H. apply andb_prop in H. destruct H as (L & F).
  apply Nat.leb_le in L. split; [lia|]. split; [exact L|]. intros v V1 V2. rewrite forallb_forall in F.
  destruct v as [| k]; [lia|]. cbn [phaseAt].
  assert (IN : In (nth k (rm_hist x) None) (skipn n (rm_hist x))).
  { rewrite <- (firstn_skipn n (rm_hist x)) at 1. rewrite app_nth2 by (rewrite firstn_length; lia). apply nth_In.
    rewrite firstn_length, skipn_length. lia. }
  specialize (F _ IN). destruct (nth k (rm_hist x) None) as [ph|]; [|discriminate].
  apply orb_prop in F. destruct F as [F | F]; apply String.eqb_eq in F; subst ph; auto.
Qed.

(** C29 is false when the cache is more than eleven seconds behind: the worker releases the
    permit although the cache does not show the marked machine (machine_util.go 1651-1656). *)
Theorem C29_slow_cache_refuted : exists ops,
  let w := rrun hour (rinit 0 2) ops in
  rm_dep (mach w 0) = rm_dep (mach w 1) /\ labelled w (rm_dep (mach w 0)) "md" /\ replaced (mach w 0) /\ replaced (mach w 1).
Proof.
  exists (setup ++ enter 0 0 ++ [RWrite 0 true true; RTimedOut 0] ++ leave 0 ++ enter 1 1 ++ [RWrite 1 true true]).
  split; [vm_compute; reflexivity|]. split; [intros x; vm_compute; intuition (subst; reflexivity)|].
  split; apply replacedb_true; vm_compute; reflexivity.
Qed.
Print Assumptions C29_slow_cache_refuted.

(** C29 is false when a write goes through but its answer is lost: the worker takes it as
    failed and does not wait for the cache (machine_util.go 1541-1551, 1651). *)
Theorem C29_lost_answer_refuted : exists ops,
  Forall (fun op => match op with RTimedOut _ | RClean => False | _ => True end) ops /\
  let w := rrun hour (rinit 0 2) ops in
  rm_dep (mach w 0) = rm_dep (mach w 1) /\ labelled w (rm_dep (mach w 0)) "md" /\ replaced (mach w 0) /\ replaced (mach w 1).
Proof.
  exists (setup ++ enter 0 0 ++ [RWrite 0 true false] ++ leave 0 ++ enter 1 1 ++ [RWrite 1 true true]).
  split; [cbn; repeat (apply Forall_cons; [exact I|]); apply Forall_nil|].
  split; [vm_compute; reflexivity|]. split; [intros x; vm_compute; intuition (subst; reflexivity)|].
  split; apply replacedb_true; vm_compute; reflexivity.
Qed.
Print Assumptions C29_lost_answer_refuted.

(** C29 is false when the clean-up of the permits falls between loading the permit and taking
    it: two workers are inside at once and both mark their machine. *)
Theorem C29_cleaned_permit_refuted : exists ops,
  Forall (fun op => match op with RTimedOut _ | RWrite _ true false => False | _ => True end) ops /\
  let w := rrun hour (rinit 0 2) ops in
  rm_dep (mach w 0) = rm_dep (mach w 1) /\ labelled w (rm_dep (mach w 0)) "md" /\ replaced (mach w 0) /\ replaced (mach w 1).
Proof.
  exists (setup ++ [RStart 0 0; RRegister 0; RTick 3601%Z; RTry 0; RCheck "md"; RClean; RSend 0; RList 0] ++
          enter 1 1 ++ [RWrite 0 true true; RWrite 1 true true]).
  split; [cbn; repeat (apply Forall_cons; [exact I|]); apply Forall_nil|].
  split; [vm_compute; reflexivity|]. split; [intros x; vm_compute; intuition (subst; reflexivity)|].
  split; apply replacedb_true; vm_compute; reflexivity.
Qed.
Print Assumptions C29_cleaned_permit_refuted.

(** Even in the histories of the theorem a second machine is marked after the first is gone
    and before its successor exists, if the MachineSet controller is slower than the removal
    (the comment in machine_util.go 1578-1580 hopes to avoid this). *)
Theorem C29_gap_refuted : exists ops,
  prompt_run hour (rinit 0 1) ops /\
  let w := rrun hour (rinit 0 1) ops in
  List.length (r_ms w) = 2 /\ phaseAt (mach w 0) (List.length (rm_hist (mach w 0))) = None /\ 1 <= rm_mark (mach w 0) /\ replaced (mach w 1).
Proof.
  exists (setup ++ enter 0 0 ++ [RWrite 0 true true; RSee 0; RSeen 0] ++ leave 0 ++
          [REnv 0 (Some "Terminating"); RSee 0; REnv 0 None; RSee 0] ++ enter 0 1 ++ [RWrite 0 true true]).
  split; [vm_compute; tauto|]. split; [vm_compute; reflexivity|]. split; [vm_compute; reflexivity|].
  split; [vm_compute; auto | apply replacedb_true; vm_compute; reflexivity].
Qed.
Print Assumptions C29_gap_refuted.

(** C29 is false, even in the histories of the theorem, for a MachineDeployment whose machines
    have no label "name": the selector of canMarkMachineFailed (machine_util.go 1558-1561) finds none
    of them, and the second machine is marked right after the first. *)
Theorem C29_no_label_refuted : exists ops,
  prompt_run hour (rinit 0 1) ops /\
  let w := rrun hour (rinit 0 1) ops in
  rm_dep (mach w 0) = "d" /\ rm_dep (mach w 1) = "d" /\ replaced (mach w 0) /\ replaced (mach w 1).
Proof.
  exists ([RNew "d" None; REnv 0 (Some "Unknown"); RSee 0; RNew "d" None; REnv 1 (Some "Unknown"); RSee 1] ++
          enter 0 0 ++ [RWrite 0 true true; RSee 0; RSeen 0] ++ leave 0 ++ enter 0 1 ++ [RWrite 0 true true]).
  split; [vm_compute; tauto|]. split; [reflexivity|]. split; [reflexivity|].
  split; apply replacedb_true; vm_compute; reflexivity.
Qed.
Print Assumptions C29_no_label_refuted.

(** C29: without the label any number of machines may be marked; nothing that the cache shows
    stops it. *)
Theorem C29_no_label_no_limit : forall ms, Forall (fun x => rm_name x = None) ms ->
  forall md, canMarkMachineFailed md ms = true.
Proof.
  intros ms F md. unfold canMarkMachineFailed. apply Nat.ltb_lt. induction F as [|x r N _ IH]; cbn [map fold_right]; [lia|].
  unfold selects at 1. rewrite N. exact IH.
Qed.
Print Assumptions C29_no_label_no_limit.

(** C29: "one per MachineDeployment" is false in the other direction too. Two MachineDeployments whose
    machines have the same label count as one: while a machine of the first is Failed, or merely
    starting, no machine of the second may be marked. *)
Theorem C29_shared_label_refuted : exists x y,
  rm_dep x <> rm_dep y /\ cachedPhase x = Some "Pending" /\ cachedPhase y = Some "Unknown" /\
  canMarkMachineFailed (rm_md y) [x; y] = false.
Proof.
  exists (mkRM "d1" (Some "worker") [Some "Pending"] 1 0), (mkRM "d2" (Some "worker") [Some "Unknown"] 1 0).
  split; [discriminate|]. repeat split.
Qed.
Print Assumptions C29_shared_label_refuted.

(** C29: a worker may mark a machine exactly when the cache shows every machine with the label
    as Unknown, Running or absent. *)
Theorem C29_marks_when : forall md ms,
  canMarkMachineFailed md ms = true <->
  Forall (fun x => rm_name x = Some md -> cachedPhase x = None \/ cachedPhase x = Some "Unknown" \/ cachedPhase x = Some "Running") ms.
Proof.
  intros md ms. unfold canMarkMachineFailed. rewrite Nat.ltb_lt. induction ms as [|x r IH]; cbn [map fold_right]; [split; auto|].
  assert (H : (if selects md x then inProgress1 (cachedPhase x) else 0) = 0 <->
    (rm_name x = Some md -> cachedPhase x = None \/ cachedPhase x = Some "Unknown" \/ cachedPhase x = Some "Running")).
  { unfold selects. destruct (rm_name x) as [nm|]; [|split; [discriminate || (intros _ Q; discriminate) | reflexivity] ].
    destruct (String.eqb_spec nm md) as [-> | E0]; [|split; [intros _ Q; congruence | reflexivity] ].
    assert (E : Some md = Some md) by reflexivity. unfold inProgress1. destruct (cachedPhase x) as [ph|]; [|tauto].
    destruct (String.eqb_spec ph "Unknown") as [-> |N1]; cbn [orb]; [tauto|]. destruct (String.eqb_spec ph "Running") as [-> |N2]; [tauto|].
    split; [destruct (String.eqb ph "Terminating"); discriminate|]. intros Q. destruct (Q E) as [X | [X | X]]; congruence. }
  rewrite Forall_cons_iff, <- H, <- IH. lia.
Qed.
Print Assumptions C29_marks_when.

(** C29: the wait for the cache is over exactly when the cache shows the machine as gone,
    Failed or Terminating. *)
Theorem C29_wait_over_when : forall x,
  cacheUpdated x = true <-> cachedPhase x = None \/ cachedPhase x = Some "Failed" \/ cachedPhase x = Some "Terminating".
Proof.
  intros x. unfold cacheUpdated. destruct (cachedPhase x) as [ph|]; [|tauto]. rewrite orb_true_iff, !String.eqb_eq. split.
  - intros [-> | ->]; auto.
  - intros [H | [H | H]]; [discriminate| |]; injection H as ->; auto.
Qed.
Print Assumptions C29_wait_over_when.

Example C29_when_case :
  canMarkMachineFailed "md" [mkRM "d" (Some "md") [Some "Running"; None] 2 0; mkRM "d" (Some "md") [Some "Unknown"] 1 0; mkRM "e" (Some "other") [Some "Failed"] 1 0; mkRM "d" None [Some "Failed"] 1 0] = true /\
  canMarkMachineFailed "md" [mkRM "d" (Some "md") [Some "Pending"; Some "Running"] 1 0] = false /\
  cacheUpdated (mkRM "d" (Some "md") [Some "Unknown"; None] 2 0) = true /\ cacheUpdated (mkRM "d" (Some "md") [Some "Unknown"; Some "Failed"] 1 1) = false.
Proof. repeat split. Qed.
