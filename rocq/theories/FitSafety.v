(** The repository's own tests of the machine controller's safety checks, classes, secrets and
    user data, run on [SafeModel], [WakeModel], [OrphModel], [FinModel] and [UserModel].
    Evidence that the models are the code; no claim rests on this file. Tests in
    pkg/util/provider/machinecontroller: machine_safety_test.go 23-799, machine_test.go
    263-417, machine_util_test.go 1979-2085, machineclass_test.go 33-452, secret_test.go
    23-117, userdata_test.go 23-113. Without a counterpart here: secret_test.go 119-155
    (updateSecretFinalizers alone) and machine_safety_util_test.go (a node missing at the API
    server). *)
Require Import Coq.ZArith.ZArith Coq.Lists.List Coq.Strings.String Coq.Bool.Bool.
From Verif Require MetaModel SafeModel FinModel UserModel.
From Verif Require Import WakeModel OrphModel.
Import ListNotations.
Open Scope string_scope.
Open Scope list_scope.
Open Scope Z_scope.

(** The machine of machine_safety_test.go 157-167. *)
Definition testmachine1 : SafeModel.SM := SafeModel.mkSM "testmachine1" false "Unknown" false 0 "" "" "" 0 "".
(** One check as in machine_safety_test.go 145-187: both answers, how long ago the server went
    away, frozen before; the timeout is 30 seconds (controller_suite_test.go 579). *)
Definition frozenAfter (control target : bool) (ago : Z) (before : bool) : bool :=
  let answer (b : bool) := if b then SafeModel.Fine else SafeModel.Broken in
  SafeModel.s_frozen (fst (SafeModel.reconcileAPIServer 30
    (SafeModel.mkSW before (Some (1000 - ago)) 1000 [testmachine1] [testmachine1] [] 0 true [])
    (answer control) (answer target) control (fun _ => control) (fun _ => control))).

(** machine_safety_test.go 190-243, all 24 entries. *)
Example freeze_table :
  map (fun p => let '(c, t, ago, before, after) := p in Bool.eqb (frozenAfter c t ago before) after)
    [(true, true, 0, false, false); (true, true, 0, true, false); (true, true, 5, false, false);
     (true, true, 5, true, false); (true, true, 300, false, false); (true, true, 300, true, false);
     (true, false, 0, false, false); (true, false, 0, true, true); (true, false, 5, false, false);
     (true, false, 5, true, true); (true, false, 300, false, true); (true, false, 300, true, true);
     (false, true, 0, false, false); (false, true, 0, true, true); (false, true, 5, false, false);
     (false, true, 5, true, true); (false, true, 300, false, true); (false, true, 300, true, true);
     (false, false, 0, false, false); (false, false, 0, true, true); (false, false, 5, false, false);
     (false, false, 5, true, true); (false, false, 300, false, true); (false, false, 300, true, true)]
  = repeat true 24.
Proof. vm_compute. reflexivity. Qed.

(** A machine with the given description, machine_safety_test.go 87-95. *)
Definition described (d : string) : WM := mkWM "" 0 false None "" [] d "" "".
(** machine_safety_test.go 105. *)
Definition outOfRange : string :=
  "Cloud provider message - machine codes error: code = [OutOfRange] message = [AWS plugin is returning multiple VM instances backing this machine object. IDs for all backing VMs - [i-1234abcd i-5678efgh]".
(** machine_safety_test.go 90. *)
Definition notFound : string :=
  "Cloud provider message - machine codes error: code = [NotFound] message = [AWS plugin is returning multiple VM instances backing this machine object. IDs for all backing VMs - [i-1234abcd i-5678efgh]".

(** machine_safety_test.go 50: a deleted machine queues the pass. *)
Example deleteMachineToSafety_table : deleteMachineToSafety (GObj (described "")) = [QueueOrphans].
Proof. vm_compute. reflexivity. Qed.

(** machine_safety_test.go 75-134. *)
Example updateMachineToSafety_table :
  map (fun p => updateMachineToSafety (described (fst p)) (described (snd p)))
    [("", ""); ("", notFound); ("", outOfRange); (outOfRange, "Machine abc successfully joined the cluster")]
  = [[]; []; [QueueOrphans]; []].
Proof. vm_compute. reflexivity. Qed.

(** The class and secret of machine_safety_test.go 263-296. *)
Definition class0 : Cls := mkCls "class-0" (Some (SecIs [("userData", "dummy-data")])) None [] None.
(** The VMs deleted by machine_safety_test.go 325, by the machine in the cache. *)
Definition deletedVMs (m : option OM) : list string :=
  flat_map (fun c => match c with DeleteVM _ id _ _ => [id] | _ => [] end)
    (fst (checkMachineClass (fun _ _ => m) class0 (Some [("testmachine-ip1", "testmachine_1")]))).

(** machine_safety_test.go 342-403. *)
Example orphans_table :
  deletedVMs None = ["testmachine-ip1"] /\ deletedVMs (Some (mkOM "" "CrashLoopBackOff")) = [] /\
  deletedVMs (Some (mkOM "" "Running")) = ["testmachine-ip1"].
Proof. vm_compute. repeat split; reflexivity. Qed.

(** A running machine with the given node label, machine_safety_test.go 432-496. *)
Definition onNode (name node : string) : WM := mkWM name 0 false (Some node) "Running" [] "" "" "".
(** The machines of machine_safety_test.go 449-496. *)
Definition theMachines : list WM := [onNode "testmachine_1" "test-node-1"; onNode "testmachine_2" "test-node-2"; onNode "testmachine_3" "test-node-2"].
(** The pass of machine_safety_test.go 536 at second 10000 with the timeout of 20 minutes;
    what is written. *)
Definition annotated (machines : list WM) (created : Z) (annots : list (string * string)) : list OCall :=
  fst (AnnotateNodesUnmanagedByMCM 10000 1200 (fun _ => machines) (fun _ => false)
    [mkON "test-node-0" created annots; mkON "test-node-1" 0 [("anno1", "value1")]; mkON "test-node-2" 0 [("anno1", "value1")]]).

(** machine_safety_test.go 561, 620, 678, 737: a node of 21 minutes gets the annotation, one of
    19 does not, one that has it keeps it, and one with a machine loses it. The node with two
    machines is left alone. *)
Example annotate_table :
  annotated theMachines (10000 - 21 * 60) [("anno1", "value1")] = [UpdateNode "test-node-0" [(NotManagedByMCM, "1"); ("anno1", "value1")]] /\
  annotated theMachines (10000 - 19 * 60) [("anno1", "value1")] = [] /\
  annotated theMachines 0 [("anno1", "value1"); (NotManagedByMCM, "1")] = [] /\
  annotated (onNode "testmachine_0" "test-node-0" :: theMachines) 0 [("anno1", "value1"); (NotManagedByMCM, "1")]
    = [UpdateNode "test-node-0" [("anno1", "value1")]].
Proof. vm_compute. repeat split; reflexivity. Qed.

(** The finalizer of machine_test.go 282. *)
Definition mcm : string := "machine.sapcloud.io/machine-controller-manager".
(** machine_test.go 327-415: no class, no secret, both, no finalizer. *)
Example ValidateMachineClass_table :
  map ValidateMachineClass
    [None; Some (mkCls "class-0" (Some SecMissing) None [mcm] None); Some (mkCls "class-0" (Some (SecIs [("foo", "bar")])) None [mcm] None);
     Some (mkCls "class-0" (Some (SecIs [("foo", "bar")])) None [] None)]
  = [VErr false; VOk None; VOk (Some [("foo", "bar")]); VErr true].
Proof. vm_compute. reflexivity. Qed.

(** machine_util_test.go 2017-2085. *)
Example validateNodeTemplate_table :
  map (fun t => validTemplate (Some t))
    [mkTpl ["cpu"; "gpu"; "memory"] "test-instance-type" "test-region" "test-zone";
     mkTpl ["gpu"; "memory"] "test-instance-type" "test-region" "test-zone";
     mkTpl ["cpu"; "gpu"; "memory"] "test-instance-type" "" "test-zone"] = [true; false; false].
Proof. vm_compute. reflexivity. Qed.

(** machineclass_test.go 106-449, the six entries in order. *)
Example machineClass_table :
  map (fun p => FinModel.decideClass (FinModel.mkObj (fst (fst p)) (snd (fst p)) 0) (snd p))
    [([], false, [1%nat]); ([], false, []); ([mcm], false, [1%nat]); ([mcm], true, [1%nat]); ([mcm], true, []); ([], true, [])]
  = [FinModel.Put [mcm]; FinModel.Nothing; FinModel.Nothing; FinModel.Retry; FinModel.Put []; FinModel.Nothing].
Proof. vm_compute. reflexivity. Qed.

(** secret_test.go 38, 77, 97: added; removed; a foreign finalizer is kept. *)
Example secret_table :
  FinModel.decideSecret (FinModel.mkObj [] false 0) [1%nat] = FinModel.Put ["machine.sapcloud.io/machine-controller"] /\
  FinModel.decideSecret (FinModel.mkObj ["machine.sapcloud.io/machine-controller"] false 0) [] = FinModel.Put [] /\
  FinModel.decideSecret (FinModel.mkObj [mcm] false 0) [] = FinModel.Nothing.
Proof. vm_compute. repeat split; reflexivity. Qed.

(** A shortened userDataTemplate, userdata_test.go 34-50. *)
Definition template (token name : string) : string :=
  ("cat << EOF > credentials/bootstrap-token" ++ token ++ "EOF" ++ "cat << EOF > credentials/machine-name" ++ name ++ "EOF")%string.
(** The environment of userdata_test.go 62-66: calls succeed; the drawn characters are all the first. *)
Definition calm : UserModel.TokEnv := UserModel.mkTokEnv false (repeat (Some 0%nat) 16) false 0 0.
(** Without a key "userData", userdata_test.go 91. *)
Definition failed {A} (o : UserModel.Out A) : bool := match o with UserModel.Bad => true | _ => false end.

(** userdata_test.go 79-94. "chine" is 6368696e65 in hexadecimal. *)
Example addBootstrapToken_table :
  let run data := fst (UserModel.addBootstrapTokenToUserData calm "foo-machine" data (fun _ => None)) in
  run [("userData", template "<<BOOTSTRAP_TOKEN>>" "<<MACHINE_NAME>>")]
    = UserModel.Good ([("userData", template "636869.0000000000000000" "<<MACHINE_NAME>>")], "636869.0000000000000000") /\
  run [("userData", "foobar")] = UserModel.Good ([("userData", "foobar")], "636869.0000000000000000") /\
  failed (run []) = true.
Proof. vm_compute. repeat split; reflexivity. Qed.

(** userdata_test.go 97-111. *)
Example addMachineName_table :
  UserModel.addMachineNameToUserData "foo-machine" [("userData", template "<<BOOTSTRAP_TOKEN>>" "<<MACHINE_NAME>>")]
    = UserModel.Good [("userData", template "<<BOOTSTRAP_TOKEN>>" "foo-machine")] /\
  UserModel.addMachineNameToUserData "foo-machine" [("userData", "foobar")] = UserModel.Good [("userData", "foobar")] /\
  failed (UserModel.addMachineNameToUserData "foo-machine" []) = true.
Proof. vm_compute. repeat split; reflexivity. Qed.
