(** C109: a new machine becomes Running, or Failed in time. *)
Require Import Coq.ZArith.ZArith Coq.Lists.List Coq.Strings.String Coq.Bool.Bool Coq.NArith.NArith Coq.micromega.Lia.
From Verif Require Import CodesModel MachModel LevModel HealthModel LifeModel CreaSpec LiveSpec JoinSpec JoinProofs JoinRunProofs.
Import ListNotations.
Open Scope string_scope.
Open Scope list_scope.
Open Scope Z_scope.

(** C109: whatever state the creation of a machine is in, four passes of the controller in which the
    provider, the node and the API server do their part make it Running, with the finalizer and with the
    name of its node; everything about its VM is recorded (it stays so if the node was known already).
    Passes in which the provider still calls the VM uninitialized may lie in between, and do no harm.
    Missing: writes that fail, caches that lag behind, and deletions in between; see the refutations for
    answers with which it is not true. *)
Theorem C109_comes_up_partial : forall cf w m l n, w_obj w = Some m -> startable m -> Forall (works cf) l -> telling l n -> (4 <= n)%nat ->
  exists m', w_obj (passes cf w l) = Some m' /\ phase m' = "Running" /\ hasFin m' = true /\ nodeName m' <> "" /\
    (nodeName m = "" \/ recorded m -> recorded m').
Proof. exact comes_up. Qed.
Print Assumptions C109_comes_up_partial.

(** C109: no history leads to a machine from which creation cannot go on, however the controller, the
    provider and users took turns and whichever calls and writes failed or were lost, as long as answers
    name the node and the ID of a VM: if the machine is not to be deleted, then its node is known or it
    has no provider ID. *)
Theorem C109_never_stuck : forall cf now ops m, Forall sensible ops -> fairLog (w_log (run cf (init now) ops)) ->
  w_obj (run cf (init now) ops) = Some m -> mo_dt m = None -> startable m /\ (nodeName m <> "" \/ mo_pid m = "").
Proof. exact never_stuck. Qed.
Print Assumptions C109_never_stuck.

(** C109: after any such history, the machine becomes Running however many passes fail: passes in which
    any calls and any writes fail, passes over an outdated view of the object, and whatever others do
    (labels, annotations, finalizers, the status that the MachineSet controller writes, restarts, time)
    may come in any number before and between, and do not throw the machine back; three passes in which
    everything works, and one more at the end, are enough.
    Missing: writes of others in the middle of one of these passes (before them they are allowed). *)
Theorem C109_despite_failures_partial : forall cf now ops m l n r, Forall sensible ops -> fairLog (w_log (run cf (init now) ops)) ->
  w_obj (run cf (init now) ops) = Some m -> mo_dt m = None ->
  Forall fairItem l -> goodOnes cf l n -> (3 <= n)%nat -> goodPass cf r ->
  exists m', w_obj (items cf (run cf (init now) ops) (l ++ [IPass r])) = Some m' /\ phase m' = "Running" /\ hasFin m' = true /\ nodeName m' <> "" /\
    (nodeName m = "" \/ recorded m -> recorded m').
Proof. exact comes_up_despite. Qed.
Print Assumptions C109_despite_failures_partial.

(** C109: a Pending machine whose node does not come up is Failed once the creation timeout is over: at
    the next pass, or at the one after it if that one has seen new conditions of the node. *)
Theorem C109_gives_up : forall cf w m r1 r2 a, w_obj w = Some m -> mo_dt m = None -> hasFin m = true -> nodeName m <> "" -> phase m = "Pending" ->
  shows a r1 -> shows a r2 -> a <> NodeErr -> ~ joined cf a -> clear a ->
  cs_time (ms_cur (mo_status m)) + cf_creation cf < fst r1 -> fst r1 <= fst r2 ->
  exists m1, w_obj (pass cf w r1) = Some m1 /\ (phase m1 = "Failed" \/
    exists m2, w_obj (pass cf (pass cf w r1) r2) = Some m2 /\ phase m2 = "Failed").
Proof. exact gives_up. Qed.
Print Assumptions C109_gives_up.

(** C109: a machine without VM whose creation fails is Failed at the first failure after the creation
    timeout, whatever was reported before. *)
Theorem C109_creation_given_up : forall cf w m r text resp, w_obj w = Some m -> mo_dt m = None -> hasFin m = true -> nodeName m = "" -> inCreation m ->
  snd r CFrozen = RBool false -> snd r CClass = RUnit -> snd r (CSecret m) = RUnit ->
  (noVM m (snd r (CGetStatus m)) /\ snd r (CCreate m) = PFail text resp \/
   snd r (CGetStatus m) = PFail text resp /\ snd (FromError text) = true /\ (forall c, In c [cNotFound; cUnimplemented; cUninitialized] -> ~ failsWith (PFail text resp) c)) ->
  late cf m (fst r) ->
  exists m', w_obj (pass cf w r) = Some m' /\ phase m' = "Failed".
Proof. exact creation_given_up. Qed.
Print Assumptions C109_creation_given_up.

(** C109: such a pass is what the machine queue of the world of C24 and C25 does when nothing else runs in between and no write fails. *)
Theorem C109_passes_are_steps : forall cf w r m, w_obj w = Some m -> mo_dt m = None -> w_c w = None ->
  exists ops c, Forall appliedC ops /\ (c = Done \/ c = Panic) /\
    run cf (onTime (fst r) w) (OStart false :: ops) = setSlots (pass cf w r) (Some c) (w_t w).
Proof. exact pass_steps. Qed.
Print Assumptions C109_passes_are_steps.

(** ** Concrete cases *)
Definition jn_cf : Cfg := mkCfg 7200 1200 600 "" (mkShow (fun _ => "") (fun _ => "")).
Definition jn_m (labels annots : list (string * string)) (pid ph : string) (t : Z) : MObj :=
  mkMO "m" 1 7 1000 None [MCM] labels annots pid (mkMS [] (mkOp "" "" 0 "" "") (mkCur ph (String.eqb ph "Pending") t) "").
Definition jn_new : MObj := mkMO "m" 1 7 1000 None [] [] [] "" (mkMS [] (mkOp "" "" 0 "" "") (mkCur "" false 0) "").
Definition jn_w (m : MObj) : World := mkW (Some m) (Some m) [] 8 2 1000 false None None [] [m] [].
Definition jn_missing : string := errorText (mkStatus cNotFound "no such VM").
Definition jn_raw : string := errorText (mkStatus cUninitialized "not yet").
(* The provider has no VM yet, makes one, calls it uninitialized for a while, then knows it; the node is fine. *)
Definition jn_env (status : MObj -> Reply) (c : Call) : Reply :=
  match c with
  | CFrozen => RBool false
  | CGetStatus m => status m
  | CCreate _ => POk "n1" "vm-1" ""
  | CStaleNode _ => RBool false
  | CInit _ => POk "n1" "vm-1" ""
  | CNode _ => RNode (NodeIs [mkNCond "Ready" "True" "" "" 0] false)
  | _ => RUnit
  end.
Definition jn_none (m : MObj) : Reply := match get "node" (mo_labels m) with None => PFail jn_missing None | Some _ => POk "n1" "vm-1" "" end.
Definition jn_early (m : MObj) : Reply := PFail jn_raw (Some ("n1", "vm-1", "")).

Lemma jn_works_none t : works jn_cf (t, jn_env jn_none) /\ initialized (t, jn_env jn_none).
Proof.
  split.
  - intros c. destruct c; cbn; try exact Logic.I; try reflexivity.
    + exists (NodeIs [mkNCond "Ready" "True" "" "" 0] false). split; [reflexivity|]. split; [eexists; split; reflexivity|]. cbn. constructor; [cbn; tauto|constructor].
    + unfold jn_none. destruct (get "node" (mo_labels m)) eqn:G.
      * left. exists "n1", "vm-1", "". repeat split; discriminate.
      * right. right. split; [|now left]. left. exists jn_missing, None, "no such VM". split; vm_compute; reflexivity.
    + exists "n1", "vm-1", "". repeat split; try discriminate. now left.
    + left. exists "n1", "vm-1", "". reflexivity.
  - intros m (t' & rs & msg & E & F). cbn in E. unfold jn_none in E. destruct (get "node" (mo_labels m)); [discriminate|]. injection E as <- <-. vm_compute in F. discriminate.
Qed.
Lemma jn_works_early t : works jn_cf (t, jn_env jn_early).
Proof.
  intros c. destruct c; cbn; try exact Logic.I; try reflexivity.
  - exists (NodeIs [mkNCond "Ready" "True" "" "" 0] false). split; [reflexivity|]. split; [eexists; split; reflexivity|]. cbn. constructor; [cbn; tauto|constructor].
  - right. left. exists jn_raw, "n1", "vm-1", "". split; [reflexivity|]. split; [discriminate|]. split; [discriminate|]. exists jn_raw, (Some ("n1", "vm-1", "")), "not yet". split; vm_compute; reflexivity.
  - exists "n1", "vm-1", "". repeat split; try discriminate. now left.
  - left. exists "n1", "vm-1", "". reflexivity.
Qed.

Definition jn_l : list (Z * (Call -> Reply)) :=
  [(1010, jn_env jn_none); (1020, jn_env jn_none); (1030, jn_env jn_early); (1040, jn_env jn_none); (1050, jn_env jn_none)].
Example C109_comes_up_case : startable jn_new /\ Forall (works jn_cf) jn_l /\ telling jn_l 4 /\
  (exists m', w_obj (passes jn_cf (jn_w jn_new) jn_l) = Some m' /\ phase m' = "Running" /\ mo_pid m' = "vm-1") /\
  map (fun k => match w_obj (passes jn_cf (jn_w jn_new) (firstn k jn_l)) with Some m => (phase m, nodeName m) | None => ("gone", "") end) (seq 0 6) =
    [("", ""); ("", ""); ("", "n1"); ("", "n1"); ("Pending", "n1"); ("Running", "n1")].
Proof.
  split; [split; [reflexivity|]; split; [constructor|]; right; split; [intros (H & _); now apply H|now left]|].
  split. { repeat constructor; try apply jn_works_early; apply jn_works_none. }
  split. { repeat (apply telling_hit; [apply jn_works_none|]). apply telling_skip. repeat (apply telling_hit; [apply jn_works_none|]). constructor. }
  split; [eexists; split; [vm_compute; reflexivity|split; reflexivity]|vm_compute; reflexivity].
Qed.

(* A user makes the object, the controller sets its finalizer in vain, and starts anew; then the create
   call of the provider fails, the write of the node label is lost, the node is not ready for a while. *)
Definition jn_hist : list Op :=
  [OCreate [] [] [] ""; OAdvance; OStart false; OStep false (RBool false) Applied []; OStep false RUnit Applied []; OStep false RUnit Dropped []; OCrash].
Definition jn_denied (c : Call) : Reply := match c with CCreate _ => PFail (errorText (mkStatus 8%N "quota")) None | _ => jn_env jn_none c end.
Definition jn_unready (c : Call) : Reply := match c with CNode _ => RNode (NodeIs [mkNCond "Ready" "False" "" "" 0] false) | _ => jn_env jn_none c end.
Definition jn_ok (_ : Call) : Fate := Applied.
Definition jn_lost (c : Call) : Fate := match c with WMeta _ => Dropped | _ => Applied end.
Definition jn_passes : list Item :=
  [IPass (1010, jn_env jn_none, jn_ok); IPass (1020, jn_denied, jn_ok); IPass (1030, jn_env jn_none, jn_lost); IPass (1040, jn_env jn_none, jn_ok);
   ILate 1 (1045, jn_env jn_none, jn_ok); IOther (OSetAnnot "a" "b"); IPass (1050, jn_env jn_none, jn_ok); IPass (1060, jn_unready, jn_ok); IOther OSetStatus].
Definition jn_end : Pass := (1070, jn_env jn_none, jn_ok).
Lemma jn_fair_env c : fair c (jn_env jn_none c).
Proof.
  destruct c; cbn; try exact Logic.I; try (split; discriminate).
  - constructor; [cbn; tauto|constructor].
  - unfold jn_none. destruct (get "node" (mo_labels m)); [split; discriminate | exact Logic.I].
Qed.
Example C109_despite_failures_case :
  let w := run jn_cf (init 1000) jn_hist in
  Forall sensible jn_hist /\ fairLog (w_log w) /\ Forall fairItem jn_passes /\ goodOnes jn_cf jn_passes 3 /\ goodPass jn_cf jn_end /\
  map (fun k => match w_obj (items jn_cf w (firstn k (jn_passes ++ [IPass jn_end]))) with Some m => (phase m, nodeName m, hasFin m) | None => ("gone", "", false) end) (seq 0 11) =
    [("", "", false); ("", "", true); ("CrashLoopBackOff", "", true); ("CrashLoopBackOff", "", true); ("CrashLoopBackOff", "n1", true);
     ("CrashLoopBackOff", "n1", true); ("CrashLoopBackOff", "n1", true); ("Running", "n1", true); ("Unknown", "n1", true); ("Terminating", "n1", true); ("Running", "n1", true)].
Proof.
  cbv zeta. split. { constructor; [right; reflexivity|]. repeat (constructor; [exact Logic.I|]). constructor. }
  split. { intros who c r H. vm_compute in H. destruct H as [H|[H|[H|[]]]]; injection H as <- <- <-; exact Logic.I. }
  assert (G : forall t, goodPass jn_cf (t, jn_env jn_none, jn_ok)).
  { intros t. destruct (jn_works_none t) as (A & B). split; [exact A|]. split; [exact B | reflexivity]. }
  assert (F1 : forall t f, fairItem (IPass (t, jn_env jn_none, f))) by (intros t f c; apply jn_fair_env).
  assert (F2 : forall t f, fairItem (IPass (t, jn_denied, f))) by (intros t f c; destruct c; try exact (jn_fair_env _); exact Logic.I).
  assert (F3 : forall t f, fairItem (IPass (t, jn_unready, f))).
  { intros t f c. destruct c; try exact (jn_fair_env _). cbn. constructor; [cbn; tauto|constructor]. }
  split. { repeat (constructor; [first [apply F1 | apply F2 | apply F3 | exact Logic.I]|]). constructor. }
  split. { apply good_hit; [apply G|]. do 2 apply good_skip. apply good_hit; [apply G|]. do 2 apply good_skip. apply good_hit; [apply G|]. do 2 apply good_skip. constructor. }
  split; [apply G|]. vm_compute. reflexivity.
Qed.

Definition jn_rec : list (string * string) := [("node", "n1")].
Definition jn_pri : list (string * string) := [(MachinePriority, "3")].
Definition jn_show (a : NodeAns) (c : Call) : Reply := match c with CFrozen => RBool false | CNode _ => RNode a | _ => RUnit end.
Definition jn_ill : NodeAns := NodeIs [mkNCond "Ready" "False" "" "" 0] false.
Example C109_gives_up_case :
  let m := jn_m jn_rec jn_pri "vm-1" "Pending" 1000 in
  nodeName m <> "" /\ phase m = "Pending" /\ shows jn_ill (2201, jn_show jn_ill) /\ ~ joined jn_cf jn_ill /\ clear jn_ill /\
  cs_time (ms_cur (mo_status m)) + cf_creation jn_cf < 2201 /\
  map (fun l => option_map phase (w_obj (passes jn_cf (jn_w m) (map (fun t => (t, jn_show jn_ill)) l)))) [[2200; 2200]; [2201]; [2201; 2202]] =
    [Some "Pending"; Some "Pending"; Some "Failed"].
Proof.
  cbv zeta. split; [discriminate|]. split; [reflexivity|]. split; [repeat split|]. split; [intros (c & E & H); injection E as <-; vm_compute in H; discriminate|].
  split; [constructor; [cbn; tauto|constructor]|]. split; [reflexivity|]. vm_compute. reflexivity.
Qed.

Definition jn_quota (c : Call) : Reply :=
  match c with CFrozen => RBool false | CGetStatus _ => PFail jn_missing None | CCreate _ => PFail (errorText (mkStatus 8%N "quota")) None | _ => RUnit end.
Example C109_creation_given_up_case :
  let m := jn_m [] [] "" "CrashLoopBackOff" 1500 in
  noVM m (jn_quota (CGetStatus m)) /\ inCreation m /\ late jn_cf m 2201 /\
  map (fun l => option_map phase (w_obj (passes jn_cf (jn_w m) (map (fun t => (t, jn_quota)) l)))) [[2200]; [2200; 2201]] = [Some "CrashLoopBackOff"; Some "Failed"].
Proof.
  cbv zeta. split; [split; [reflexivity|]; left; exists jn_missing, None, "no such VM"; split; vm_compute; reflexivity|].
  split; [now right|]. split; [reflexivity|]. vm_compute. reflexivity.
Qed.

(** ** Where it is not true *)
Lemma jn_stuck (P : (Z * (Call -> Reply)) -> Prop) cf m : mo_dt m = None ->
  (forall r w, P r -> w_obj w = Some m -> w_obj (execC (snd r) (reconcileMachine cf m) w) = Some m) ->
  forall l w, Forall P l -> w_obj w = Some m -> w_obj (passes cf w l) = Some m.
Proof.
  intros D H l. induction l as [|r l IH]; intros w F E; [exact E|]. inversion F; subst. apply IH; [assumption|]. unfold pass. rewrite E, D. apply H; [assumption|exact E].
Qed.

(** C109 fails when the provider gives no name for the node: the machine becomes Pending, and then no pass
    looks at it any more, whatever is answered and however much time goes by (machine.go 207, 225). *)
Definition jn_noname : list Op :=
  let go rs := OStart false :: map (fun r => OStep false r Applied ["vm-1"]) rs ++ [OStep false RUnit Applied ["vm-1"]; OAdvance] in
  [OCreate [] [] [] ""; OAdvance] ++ go [RBool false; RUnit; RUnit] ++
  go [RBool false; RUnit; RUnit; PFail jn_missing None; POk "" "vm-1" ""; RBool false; RUnit; POk "" "vm-1" ""] ++
  go [RBool false; RUnit; RUnit; POk "" "vm-1" ""; RUnit; RUnit].
Theorem C109_no_node_name_refuted : exists m, let w := run jn_cf (init 1000) jn_noname in
  w_obj w = Some m /\ phase m = "Pending" /\ hasFin m = true /\ recorded m /\
  forall l, w_obj (passes jn_cf w l) = Some m.
Proof.
  eexists. cbv zeta. split; [vm_compute; reflexivity|]. split; [reflexivity|]. split; [reflexivity|]. split; [repeat split; discriminate|].
  intros l. apply (jn_stuck (fun _ => True)); [reflexivity| |now apply Forall_forall|vm_compute; reflexivity].
  intros r w _ E. unfold reconcileMachine. cbn [execC]. unfold perform at 1.
  destruct (snd r CFrozen) as [| | |[]| | | | | |]; try exact E. cbn [execC]. unfold perform at 1. destruct (snd r CClass); exact E.
Qed.
Print Assumptions C109_no_node_name_refuted.

(** C109 fails when the provider goes on calling the VM uninitialized although its initialization succeeds
    or is not needed: the machine stays without phase, even if its node is there and ready; there is no
    timeout (machine.go 566-580, 655-697). *)
Definition jn_half : MObj := jn_m jn_rec jn_pri "vm-1" "" 0.
Theorem C109_uninitialized_refuted : forall ts, phase jn_half = "" /\ recorded jn_half /\
  Forall (works jn_cf) (map (fun t => (t, jn_env jn_early)) ts) /\
  w_obj (passes jn_cf (jn_w jn_half) (map (fun t => (t, jn_env jn_early)) ts)) = Some jn_half.
Proof.
  intros ts. split; [reflexivity|]. split; [repeat split; discriminate|]. split.
  - apply Forall_forall. intros r H. apply in_map_iff in H. destruct H as (t & <- & _). apply jn_works_early.
  - apply (jn_stuck (fun r => snd r = jn_env jn_early)); [reflexivity| | |reflexivity].
    + intros r w -> E. vm_compute. vm_compute in E. exact E.
    + apply Forall_forall. intros r H. apply in_map_iff in H. destruct H as (t & <- & _). reflexivity.
Qed.
Print Assumptions C109_uninitialized_refuted.

(** C109 fails when the secrets cannot be read or the bootstrap token cannot be made: such a machine
    is not reported and not given up, however late it is (machine.go 457-466). *)
Theorem C109_no_deadline_refuted : forall l, Forall (fun r => forall m, snd r (CSecret m) = RErr "no secret") l ->
  inCreation (jn_m [] [] "" "" 0) /\ w_obj (passes jn_cf (jn_w (jn_m [] [] "" "" 0)) l) = Some (jn_m [] [] "" "" 0).
Proof.
  intros l F. split; [now left|]. apply (jn_stuck (fun r => forall m, snd r (CSecret m) = RErr "no secret")); [reflexivity| |exact F|reflexivity].
  intros r w S E. unfold reconcileMachine. cbn [execC]. unfold perform at 1.
  destruct (snd r CFrozen) as [| | |[]| | | | | |]; try exact E. cbn [execC]. unfold perform at 1. destruct (snd r CClass); try exact E.
  cbn [hasFin jn_m mo_fins existsb MCM]. cbn -[perform]. unfold perform. rewrite S. exact E.
Qed.
Print Assumptions C109_no_deadline_refuted.
