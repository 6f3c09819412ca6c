(** Properties C101 and C102: when a program begins to work, and what /healthz says meanwhile. *)
Require Import Coq.ZArith.ZArith Coq.Lists.List Coq.Strings.String Coq.Bool.Bool Coq.micromega.Lia.
From Verif Require Import StartModel StartSpec StartProofs.
Import ListNotations.
Open Scope string_scope.
Open Scope list_scope.

Definition ex_lists := [mkRL "v1" ["pods"; "nodes"]; mkRL "machine.sapcloud.io/v1alpha1" ["machines"; "machines/status"; "machinesets"; "machinedeployments"; "machineclasses"]].
Definition ex_answer := mkAnswer [NoClient; Status 500; Status 200] ex_lists (Some true).
Definition ex_conf := mkConf true 2.
Definition ex_start (p : Program) := [Listen; Elected; Asked ex_answer] ++ map Filled (waitedFor p true) ++ [Tick].

(** C101_work: whatever happens and in whatever order: when a worker takes a key, the replica had been
    elected if there is an election, the API server had said that it is well, it had listed a kind of this
    project, and every cache that the reconciles read had been filled, except the pods, and except the
    disruption budgets before Kubernetes 1.21. The queue is one that the program works on.
    Partial: not that all kinds are there (C101_kinds_refuted) nor that pods and budgets have been read
    (C101_pods_refuted, C101_budgets_refuted). *)
Theorem C101_work_partial : forall p cf l q filled, In (q, filled) (r_taken (rrun p cf l)) ->
  (c_elect cf = true -> In Elected l) /\ In q (fed p) /\
  exists a, In (Asked a) l /\ said_healthy a /\ (exists kind, In kind (kinds p) /\ offered a kind) /\
    forall c, In c (reads p) -> c <> CPods -> (c = CPdbs -> a_version a <> Some false) -> In c filled /\ In (Filled c) l.
Proof.
  intros p cf l q filled H. pose proof (inv_run p cf l) as (T & _ & _). rewrite Forall_forall in T.
  destruct (T _ H) as (He & Hq & ge & (a & Ha & Hc) & Inc). cbn [fst snd] in *.
  pose proof (taken_filled p cf l q filled H) as Fi.
  split; [ exact He | ]. split; [ destruct p; exact Hq | ].
  exists a. split; [ exact Ha | ]. apply checks_spec in Hc. destruct Hc as (H1 & _ & _ & H4). split; [ exact H1 | ].
  split.
  - destruct p; [ destruct H4 as (_ & [H4|[H4|H4]]) | destruct H4 as (_ & H4) ];
      (eexists; split; [ | exact H4 ]); cbn; auto.
  - intros c Hc Np Nb. assert (G : In c filled).
    { apply Inc. destruct p.
      - cbn in Hc |- *. tauto.
      - destruct H4 as (Hv & _). cbn [reads In] in Hc. cbn [waitedFor]. destruct ge; cbn [In]; [ intuition auto; subst; congruence | ].
        intuition auto; subst; try congruence. }
    split; [ exact G | exact (Fi c G) ].
Qed.
Print Assumptions C101_work_partial.
Example C101_work_case :
  r_taken (rrun Machines ex_conf (ex_start Machines ++ [Take QMachines])) = [(QMachines, rev (waitedFor Machines true))] /\
  r_taken (rrun Manager ex_conf (Take QSets :: ex_start Manager ++ [Take QSets; Take QMachines])) = [(QSets, rev (waitedFor Manager true))].
Proof. split; vm_compute; reflexivity. Qed.

(** The full statement also has the pods among the caches: a machine is worked on although the pods have not been read;
    the drain waits for them itself (drain.go 242, property C39). *)
Theorem C101_pods_refuted : exists cf l q filled, In (q, filled) (r_taken (rrun Machines cf l)) /\ ~ In CPods filled.
Proof.
  exists ex_conf, (ex_start Machines ++ [Take QTermination]), QTermination, (rev (waitedFor Machines true)).
  split; [ vm_compute; auto | vm_compute; intuition discriminate ].
Qed.
Print Assumptions C101_pods_refuted.
(** With a target before 1.21 the disruption budgets are read by the drain but never waited for. *)
Theorem C101_budgets_refuted : exists cf l q filled, In (q, filled) (r_taken (rrun Machines cf l)) /\ In CPdbs (reads Machines) /\ ~ In CPdbs filled.
Proof.
  exists ex_conf, ([Elected; Asked (mkAnswer [Status 200] ex_lists (Some false))] ++ map Filled (waitedFor Machines false) ++ [Tick; Take QTermination]), QTermination, (rev (waitedFor Machines false)).
  split; [ vm_compute; auto | split; vm_compute; [ tauto | intuition discriminate ] ].
Qed.
Print Assumptions C101_budgets_refuted.

(** C101_checks: the checks pass exactly if the API server said it is well in time, listed something, with
    group versions that can be read, and: for the manager at least one of its three kinds, for the
    controller of machines that kind and a readable version of the target. *)
Theorem C101_checks : forall p a ge, startChecks p a = Ok ge <->
  said_healthy a /\ a_lists a <> [] /\ well_formed a /\
  match p with
  | Manager => ge = true /\ (offered a "machines" \/ offered a "machinesets" \/ offered a "machinedeployments")
  | Machines => a_version a = Some ge /\ offered a "machines"
  end.
Proof. exact checks_spec. Qed.
Print Assumptions C101_checks.
Example C101_checks_case : startChecks Manager ex_answer = Ok true /\ startChecks Machines (mkAnswer [Status 200] ex_lists None) = Err NoVersion /\
  startChecks Machines (mkAnswer [Status 503; NoClient] ex_lists (Some true)) = Err Unhealthy /\
  startChecks Machines (mkAnswer [Status 200] [mkRL "machine.sapcloud.io/v1beta1" ["machines"]] (Some true)) = Err Unsupported /\
  startChecks Manager (mkAnswer [Status 200] (mkRL "a/b/c" [] :: ex_lists) (Some true)) = Err BadGroupVersion.
Proof. repeat split; vm_compute; reflexivity. Qed.

(** One would expect a program to refuse to start when a kind it works with is missing. It does not. *)
Theorem C101_kinds_refuted : forall p, exists a ge kind, startChecks p a = Ok ge /\ In kind (kinds p) /\ ~ offered a kind.
Proof.
  intros p. exists (mkAnswer [Status 200] [mkRL "machine.sapcloud.io/v1alpha1" ["machines"]] (Some true)), true.
  destruct p; [ exists "machinesets" | exists "machineclasses" ]; (split; [ vm_compute; reflexivity | split; [ cbn; auto | ] ]);
    intros (r & [<-|[]] & _ & [H|[]]); discriminate H.
Qed.
Print Assumptions C101_kinds_refuted.

(** C101_lost: a replica that loses the lock takes no key any more. *)
Theorem C101_lost : forall p cf l1 l2, c_elect cf = true -> r_phase (rrun p cf l1) <> Electing ->
  r_taken (rrun p cf (l1 ++ Lost :: l2)) = r_taken (rrun p cf l1) /\ r_workers (rrun p cf (l1 ++ Lost :: l2)) = [].
Proof. exact lost_ends. Qed.
Print Assumptions C101_lost.
Example C101_lost_case : r_workers (rrun Machines ex_conf (ex_start Machines)) <> [] /\
  r_taken (rrun Machines ex_conf (ex_start Machines ++ Lost :: [Elected; Asked ex_answer; Tick; Take QMachines])) = [].
Proof. split; vm_compute; [ discriminate | reflexivity ]. Qed.

(** C101_one: with leader election at most one replica has workers, in every execution of any number of
    replicas. *)
Theorem C101_one : forall p cf n l i j a b, c_elect cf = true ->
  nth_error (f_replicas (frun p cf n l)) i = Some a -> nth_error (f_replicas (frun p cf n l)) j = Some b ->
  r_workers a <> [] -> r_workers b <> [] -> i = j.
Proof. exact one_leader. Qed.
Print Assumptions C101_one.
(** Two replicas; the first is elected and works, the second cannot; after the first has lost the lock the second can. *)
Definition ex_second (i : nat) : list (nat * Ev) := map (fun e => (i, e)) (ex_start Machines).
Example C101_one_case :
  map (fun r => List.length (r_workers r)) (f_replicas (frun Machines ex_conf 2 (ex_second 0 ++ ex_second 1))) = [14; 0]%nat /\
  map (fun r => List.length (r_workers r)) (f_replicas (frun Machines ex_conf 2 (ex_second 0 ++ [(0%nat, Lost)] ++ ex_second 1))) = [0; 14]%nat.
Proof. split; vm_compute; reflexivity. Qed.
(** Without leader election two replicas work at the same time. *)
Theorem C101_one_refuted : exists p cf l a b, 
  nth_error (f_replicas (frun p cf 2 l)) 0 = Some a /\ nth_error (f_replicas (frun p cf 2 l)) 1 = Some b /\ r_workers a <> [] /\ r_workers b <> [].
Proof.
  exists Machines, (mkConf false 1), (ex_second 0 ++ ex_second 1). eexists. eexists.
  split; [ vm_compute; reflexivity | split; [ vm_compute; reflexivity | split; vm_compute; discriminate ] ].
Qed.
Print Assumptions C101_one_refuted.

(** C101_workers: a replica that has passed the checks and whose caches are filled works after the next
    look, and then every queue that is fed has the wanted number of workers. *)
Theorem C101_workers : forall p cf l ge, r_phase (rrun p cf l) = Waiting ge -> incl (waitedFor p ge) (r_filled (rrun p cf l)) ->
  r_phase (rrun p cf (l ++ [Tick])) = Working /\
  forall q, In q (fed p) -> workers_on q (rrun p cf (l ++ [Tick])) = Z.to_nat (c_syncs cf).
Proof.
  intros p cf l ge Hp Hi. rewrite rrun_snoc. apply allSynced_incl in Hi. unfold rstep. rewrite Hp, Hi.
  split; [ reflexivity | ]. intros q Hq. unfold workers_on. cbn [r_workers]. apply started_count. destruct p; exact Hq.
Qed.
Print Assumptions C101_workers.
Example C101_workers_case : let r := rrun Machines ex_conf (ex_start Machines) in
  r_phase r = Working /\ workers_on QTermination r = 2%nat /\ workers_on QSets r = 0%nat.
Proof. repeat split; vm_compute; reflexivity. Qed.
(** The number of workers is not validated: with 0, or below, the program runs and does nothing. *)
Theorem C101_no_workers_refuted : forall p n, (n <= 0)%Z -> exists l,
  let r := rrun p (mkConf true n) l in r_phase r = Working /\ r_health r = true /\ forall q, workers_on q r = 0%nat.
Proof.
  intros p n Hn. exists (ex_start p). assert (E : Z.to_nat n = 0%nat) by lia.
  assert (R : rrun p (mkConf true n) (ex_start p) = mkReplica Working true (rev (waitedFor p true)) (startedWorkers p n) []) by (destruct p; vm_compute; reflexivity).
  cbv zeta. rewrite R. cbn [r_phase r_health]. split; [ reflexivity | split; [ reflexivity | ] ].
  intros q. unfold workers_on. cbn [r_workers]. unfold startedWorkers. rewrite E. reflexivity.
Qed.
Print Assumptions C101_no_workers_refuted.

(** C102_health: in every execution /healthz says "OK" exactly from the moment the server has been set up and
    as long as the process runs. *)
Theorem C102_health : forall p cf l, alive (rrun p cf l) -> (r_health (rrun p cf l) = true <-> In Listen l).
Proof.
  intros p cf l A. split; [ | intro H; apply health_run; assumption ].
  intro H. destruct (in_dec ev_dec Listen l) as [Y|N]; [ exact Y | ]. rewrite (health_false_before p cf l N) in H. discriminate H.
Qed.
Print Assumptions C102_health.
Example C102_health_case : r_health (rrun Machines ex_conf (ex_start Machines)) = true /\ r_health (rrun Machines ex_conf [Elected]) = false.
Proof. split; vm_compute; reflexivity. Qed.

(** C102_stuck: as long as one of the caches that are waited for cannot be filled, nothing is done and
    no worker is started, however long the process runs; it does not give up. *)
Theorem C102_stuck : forall p cf c l, (forall ge, In c (waitedFor p ge)) -> ~ In (Filled c) l ->
  r_workers (rrun p cf l) = [] /\ r_taken (rrun p cf l) = [] /\ r_phase (rrun p cf l) <> Working.
Proof. exact stuck. Qed.
Print Assumptions C102_stuck.

(** One would expect "OK" to mean that the program works or waits for the lock. The definition of
    MachineSets is missing, the manager passes its checks, it is alive and "OK" and does nothing, after any
    number of looks. The same for the controller of machines without the definition of MachineClasses. *)
Definition ex_missing := mkAnswer [Status 200] [mkRL "machine.sapcloud.io/v1alpha1" ["machines"; "machinedeployments"]] (Some true).
Theorem C102_ok_refuted : forall p n, exists l, (forall e, In e l -> e <> Filled (match p with Manager => CSets | Machines => CClasses end)) /\
  let r := rrun p ex_conf (l ++ repeat Tick n) in
  alive r /\ r_health r = true /\ r_workers r = [] /\ r_phase r = Waiting true.
Proof.
  intros p n.
  exists ([Listen; Elected; Asked ex_missing] ++ map Filled (match p with Manager => [CNodes; CMachines; CDeployments] | Machines => [CSecrets; CPvcs; CPvs; CPdbs; CAttachments; CNodes; CMachines; CPods] end)).
  split.
  - destruct p; intros e H; cbn [app map In] in H; intuition (subst; discriminate).
  - remember ([Listen; Elected; Asked ex_missing] ++ map Filled (match p with Manager => [CNodes; CMachines; CDeployments] | Machines => [CSecrets; CPvcs; CPvs; CPdbs; CAttachments; CNodes; CMachines; CPods] end)) as l eqn:El.
    assert (E : rrun p ex_conf (l ++ repeat Tick n) = rrun p ex_conf l).
    { induction n as [|n IH]; [ rewrite app_nil_r; reflexivity | ]. cbn [repeat]; rewrite repeat_cons, app_assoc, rrun_snoc, IH. subst l. destruct p; vm_compute; reflexivity. }
    cbv zeta. rewrite E. subst l. destruct p; vm_compute; (split; [ discriminate | auto ]).
Qed.
Print Assumptions C102_ok_refuted.

(** C102_attachments: attachments of volumes are followed exactly if both calls succeeded at the start and
    the preferred version of the first group with that name lists them. *)
Theorem C102_attachments : forall groups lists, attachmentHandler groups lists = true <->
  exists gs gs1 gs2 v names, groups = Some gs /\ gs = gs1 ++ ("storage.k8s.io", v) :: gs2 /\ ~ In "storage.k8s.io" (map fst gs1) /\
    lists v = Some names /\ In "volumeattachments" names.
Proof. exact attachments_spec. Qed.
Print Assumptions C102_attachments.
Example C102_attachments_case :
  attachmentHandler (Some [("apps", "apps/v1"); ("storage.k8s.io", "storage.k8s.io/v1")]) (fun v => if String.eqb v "storage.k8s.io/v1" then Some ["storageclasses"; "volumeattachments"] else None) = true /\
  attachmentHandler (Some [("storage.k8s.io", "storage.k8s.io/v1")]) (fun _ => None) = false.
Proof. split; vm_compute; reflexivity. Qed.
(** It is asked only once: if a call fails at that moment, a cluster that has the resource is treated as one
    without it until the program starts again. *)
Theorem C102_attachments_refuted : exists groups lists, attachmentHandler (Some groups) lists = true /\ attachmentHandler None lists = false.
Proof.
  exists [("storage.k8s.io", "storage.k8s.io/v1")], (fun _ => Some ["volumeattachments"]). split; vm_compute; reflexivity.
Qed.
Print Assumptions C102_attachments_refuted.
