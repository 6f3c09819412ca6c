(** Properties of a MachineSet whose controller's view runs behind: C103. *)
Require Import Coq.ZArith.ZArith Coq.Lists.List Coq.Strings.String Coq.Bool.Bool Coq.Sorting.Permutation Coq.micromega.Lia.
From Verif Require Import MSetModel MSetSpec LagModel LagSpec LagProofs.
Import ListNotations.
Open Scope string_scope.
Open Scope list_scope.
Open Scope Z_scope.

Definition lg_run (i : nat) : Mach := mkMach i "" "" "Running" 0 false.

(** C103, too many: whatever happens and whatever calls fail, if fewer than [k]
    reconciles are invisible to the cache whenever a reconcile starts, the serving
    machines never exceed the requested number (at most [N]) by more than k-1 times
    min(N, 100), not counting machines brought back into service from outside.
    Partial: the bound on how far the cache is behind is assumed; nothing in the
    code ensures it (next theorem). *)
Theorem C103_over_partial : forall os k N spec fr ms next, (1 <= k)%nat -> 0 <= spec <= N ->
  each (fun l o => shown l o /\ sized 0 N o /\ behind k l o) (begin spec fr ms next) os ->
  let l := lrun (begin spec fr ms next) os in
  nserving (w_machines (l_w l)) <= Z.max (nserving ms) (N + (Z.of_nat k - 1) * Z.min N 100) + Z.of_nat (l_got l).
Proof. exact over. Qed.
Print Assumptions C103_over_partial.

Example C103_over_case :
  let os := [LReconcile allok 0; LPhase 0 "Failed"; LSee 1 (s_ms (mkSnap (created 0 0 2) 0 0 0)); LReconcile allok 0; LSee 0 [mkMach 0 "" "" "Failed" 0 false; mkMach 1 "" "" "" 0 false]; LReconcile allok 5] in
  each (fun l o => shown l o /\ sized 0 2 o /\ behind 2 l o) (begin 2 false [] 0) os /\
  map m_phase (w_machines (l_w (lrun (begin 2 false [] 0) os))) = ["Terminating"; ""; ""] /\
  map m_ctime (w_machines (l_w (lrun (begin 2 false [] 0) os))) = [0; 0; 5].
Proof.
  cbn zeta. split; [|split; vm_compute; reflexivity].
  cbn [each shown sized behind]. repeat split; try (vm_compute; lia).
  - exists (mkSnap (created 0 0 2) 1 0 0). split; [vm_compute; reflexivity|apply Permutation_refl].
  - eexists. split; [vm_compute; reflexivity|]. vm_compute. apply Permutation_refl.
Qed.

(** C103: the bound is met: a cache that does not move makes [k] reconciles create
    the requested number [k] times. So there is no bound without one on the delay. *)
Theorem C103_over_refuted : forall k N, (1 <= k)%nat -> 0 <= N <= 100 ->
  exists os, each (fun l o => shown l o /\ sized 0 N o /\ behind k l o) (begin N false [] 0) os /\
    let l := lrun (begin N false [] 0) os in
    l_got l = 0%nat /\ nserving (w_machines (l_w l)) = N + (Z.of_nat k - 1) * Z.min N 100.
Proof. exact over_tight. Qed.
Print Assumptions C103_over_refuted.

Example C103_tight_case : nserving (w_machines (l_w (lrun (begin 3 false [] 0) (repeat (LReconcile allok 0) 4)))) = 12.
Proof. vm_compute. reflexivity. Qed.

(** C103, too few: if every reconcile sees a state no older than the last reconcile
    (phases, annotations and deletions by others may be arbitrarily old), the
    machines that serve and are not being deleted never fall below the smaller of
    the initial number and the least requested number, except by as many as others
    took away. Partial: assumes that view, and that a machine the controller
    deletes is also shown as Terminating. *)
Theorem C103_under_partial : forall os lo hi spec fr ms next, 0 <= lo -> lo <= spec <= hi -> named ms next -> Forall (fun m => m_deleting m = false) ms ->
  each (fun l o => shown l o /\ sized lo hi o /\ behind 1 l o /\ told o) (begin spec fr ms next) os ->
  let l := lrun (begin spec fr ms next) os in
  Z.min (nserving ms) lo <= nkept (w_machines (l_w l)) + Z.of_nat (l_lost l).
Proof. exact under. Qed.
Print Assumptions C103_under_partial.

Example C103_under_case :
  let b := begin 3 false [lg_run 0; lg_run 1; lg_run 2; lg_run 3] 4 in
  let os := [LDelete 3; LScale 2; LReconcile allok 0; LGone 3; LSee 0 [mkMach 0 "" "" "Terminating" 0 true; mkMach 1 "" "" "Terminating" 0 true; lg_run 2]; LReconcile allok 7] in
  each (fun l o => shown l o /\ sized 2 3 o /\ behind 1 l o /\ told o) b os /\
  l_lost (lrun b os) = 1%nat /\ nkept (w_machines (l_w (lrun b os))) = 2 /\
  nkept (w_machines (l_w (lrun b (firstn 4 os)))) = 1.
Proof.
  cbn zeta. split; [|vm_compute; repeat split].
  cbn [each shown sized behind told]. repeat split; try (vm_compute; lia); try lia; try (intros; reflexivity).
  eexists. split; [vm_compute; reflexivity|]. vm_compute. apply Permutation_refl.
Qed.

(** C103 fails when one reconcile is invisible: a view that is only listed in
    another order chooses another of several equal machines, so scaling down by one
    deletes every machine, though nothing failed and nobody took one away. *)
Theorem C103_order_refuted : exists ms next os, named ms next /\ Forall (fun m => m_deleting m = false) ms /\
  each (fun l o => shown l o /\ sized 1 1 o /\ behind 2 l o /\ told o) (begin 1 false ms next) os /\
  let l := lrun (begin 1 false ms next) os in
  nserving ms = 2 /\ l_lost l = 0%nat /\ nkept (w_machines (l_w l)) = 0.
Proof.
  exists [lg_run 0; lg_run 1], 2%nat, [LReconcile allok 0; LSee 1 [lg_run 1; lg_run 0]; LReconcile allok 0].
  split; [split; repeat constructor; simpl; intuition lia|]. split; [repeat constructor|]. split; [|vm_compute; repeat split].
  cbn [each shown sized behind told]. repeat split; try (vm_compute; lia); try lia; try (intros; reflexivity).
  exists (mkSnap [lg_run 0; lg_run 1] 0 0 0). split; [vm_compute; reflexivity|]. apply perm_swap.
Qed.
Print Assumptions C103_order_refuted.

(** The same with a fixed order of listing: between the two reconciles another
    machine becomes the first to be given up. *)
Theorem C103_phase_refuted : exists ms next os, named ms next /\ Forall (fun m => m_deleting m = false) ms /\
  each (fun l o => shown l o /\ sized 1 1 o /\ behind 2 l o /\ told o) (begin 1 false ms next) os /\
  let l := lrun (begin 1 false ms next) os in
  nserving ms = 2 /\ l_lost l = 0%nat /\ nkept (w_machines (l_w l)) = 0.
Proof.
  exists [lg_run 0; mkMach 1 "" "" "Running" 5 false], 2%nat,
    [LPhase 1 "Unknown"; LReconcile allok 0; LSee 1 [lg_run 0; mkMach 1 "" "" "Unknown" 5 false]; LReconcile allok 0].
  split; [split; repeat constructor; simpl; intuition lia|]. split; [repeat constructor|]. split; [|vm_compute; repeat split].
  cbn [each shown sized behind told]. repeat split; try (vm_compute; lia); try lia; try (intros; reflexivity).
  eexists. split; [vm_compute; reflexivity|]. vm_compute. apply Permutation_refl.
Qed.
Print Assumptions C103_phase_refuted.

(** C103: from every state that any execution reaches, with any delays and failures,
    the ordinary course of things leads to exactly the requested number of machines,
    none of them being deleted (the set not being frozen). *)
Theorem C103_never_stuck : forall os0 spec fr ms next, named ms next ->
  let l := lrun (begin spec fr ms next) os0 in w_frozen (l_w l) = false -> 0 <= w_spec (l_w l) ->
  exists os, each ordinary l os /\ w_spec (l_w (lrun l os)) = w_spec (l_w l) /\
    nkept (w_machines (l_w (lrun l os))) = w_spec (l_w l) /\ nserving (w_machines (l_w (lrun l os))) = w_spec (l_w l).
Proof. exact never_stuck. Qed.
Print Assumptions C103_never_stuck.

Example C103_stuck_case :
  let l := lrun (begin 1 false [lg_run 0; lg_run 1] 2) [LReconcile allok 0; LSee 1 [lg_run 1; lg_run 0]; LReconcile allok 0] in
  let os := [LGone 0; LGone 1; LSee 0 []; LReconcile allok 1] in
  each ordinary l os /\ map m_id (w_machines (l_w (lrun l os))) = [2]%nat.
Proof. vm_compute. repeat split. Qed.
