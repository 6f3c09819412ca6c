(** The repository's own tests of the drain, run on [DrainModel]. Evidence that the model is the
    code; no claim rests on this file. Tests in pkg/util/provider/drain/drain_test.go 415-990; the
    durations they look at are not in the model. *)
Require Import Coq.ZArith.ZArith Coq.Lists.List Coq.Strings.String Coq.Strings.Ascii Coq.Bool.Bool Coq.Arith.PeanoNat.
From Verif Require Import AttModel DrainModel.
Import ListNotations.
Open Scope string_scope.
Open Scope list_scope.
Open Scope nat_scope.

(** strconv.Itoa for one digit. *)
Definition digit (n : nat) : string := String (ascii_of_nat (48 + n)) "".
(** drain_test.go 992-1011 getPodWithoutPV and 1021-1044 getPodWithPV: the volumes are claims with their
    own names. *)
Definition pod (ns name : string) (claims : list string) : Pod :=
  mkPod ns name name "old-node" false [("", true)] false (map (fun c => mkVol false (Some c)) claims) (Some 0%Z).
(** drain_test.go 1046-1063 getPodsWithPV. *)
Definition podsWithPV (n nEx nSh perPod : nat) (ns prefix exPrefix shPrefix : string) : list Pod :=
  map (fun i => pod ns (prefix ++ digit i)%string
    ((if Nat.ltb 0 nEx then map (fun j => (exPrefix ++ digit (i mod nEx) ++ "-" ++ digit j)%string) (seq 0 perPod) else []) ++
     (if Nat.ltb 0 nSh then [(shPrefix ++ digit (i mod nSh))%string] else []))) (seq 0 n).

(** The pods of the table: without volumes, with exclusive ones, with shared ones, with both
    (drain_test.go 84-95). *)
Definition podsOf (none ex sh both perPod : nat) : list Pod :=
  map (fun i => pod "test" ("nopv-" ++ digit i)%string []) (seq 0 none) ++
  podsWithPV ex ex 0 perPod "test" "expv-" "expv-" "" ++
  podsWithPV sh 0 (sh / 2) perPod "test" "shpv-" "" "shpv-" ++
  podsWithPV both both (both / 2) perPod "test" "exshpv-" "exshexpv-" "exshshpv-".

(** Every claim is bound to the volume of its name, and the driver knows it by its name. *)
Definition bound (ns c : string) (try : nat) : PvcAns := PvcVol c.
Definition known (v : string) : option string := Some v.
(** The volumes are gone at the second look, the pods are deleted, the attachments come up at the new
    node. *)
Definition meets (a : Ans) (claims : list string) (i : nat) : Att :=
  mkAtt false a [] [NVols claims; NVols []] (map (fun c => mkVA (Some c) "new-node" true) claims).
Definition met (a : nat -> Ans) (i : nat) : PEnv := mkPEnv a (fun _ => []) [mkGet (Some true) None].
(** All claims. *)
Definition allClaims (ps : list Pod) : list string :=
  flat_map (fun p => flat_map (fun v => match v_claim v with Some c => [c] | None => [] end) (p_vols p)) ps.

(** RunDrain: the number of evictions that go through, and the result; [None] if it does not end. *)
Definition runDrain (ps : list Pod) (support force handler : bool) (evict : Ans) (retries : Z) : option (nat * Out) :=
  let o := mkOpts "old-node" force true true true retries handler in
  match startDrain o true true (Some ps) (Some support) with
  | None => None
  | Some (l, attempt) =>
      let answers (i : nat) := if attempt && Z.ltb (Z.of_nat i) retries then evict else AOk in
      match goroutines o String.eqb bound known (fun i => meets (if attempt then evict else AOk) (allClaims l) i) (fun _ => met answers 0) 20 attempt l with
      | None => None
      | Some gs =>
          let t := flat_map (fun g => match g with Some t => t | None => [] end) gs in
          Some (List.length (filter (fun x => match x with TCall true _ AOk => true | _ => false end) t),
                collect (List.length l) (sends t))
      end
  end.

(** drain_test.go 416, 442, 470, 498, 526, 556, 586, 612, 638, 666, 694, 722: evictions supported or not;
    every pod is evicted or deleted, nothing fails. *)
Example drain_table :
  runDrain (podsOf 10 0 0 0 1) false false false AOk 3 = Some (0, Returned []) /\
  runDrain (podsOf 10 0 0 0 1) true false false AOk 3 = Some (10, Returned []) /\
  runDrain (podsOf 0 2 0 0 1) false false false AOk 3 = Some (0, Returned []) /\
  runDrain (podsOf 0 2 0 0 1) true false false AOk 3 = Some (2, Returned []) /\
  runDrain (podsOf 0 2 0 0 1) true false true AOk 3 = Some (2, Returned []) /\
  runDrain (podsOf 0 1 0 0 2) true false true AOk 3 = Some (1, Returned []) /\
  runDrain (podsOf 0 0 2 0 1) false false false AOk 3 = Some (0, Returned []) /\
  runDrain (podsOf 0 0 2 0 1) true false false AOk 3 = Some (2, Returned []) /\
  runDrain (podsOf 0 0 0 2 1) false false false AOk 3 = Some (0, Returned []) /\
  runDrain (podsOf 0 0 0 2 1) true false false AOk 3 = Some (2, Returned []) /\
  runDrain (podsOf 10 2 0 0 1) false false false AOk 3 = Some (0, Returned []) /\
  runDrain (podsOf 10 2 0 0 1) true false false AOk 3 = Some (12, Returned []).
Proof. vm_compute. repeat split. Qed.

(** drain_test.go 750, 777, 804, 833: a forced drain deletes and does not evict, whatever evictions would
    answer. *)
Example forced_table :
  runDrain (podsOf 10 2 0 0 1) false true false AOk 3 = Some (0, Returned []) /\
  runDrain (podsOf 10 2 0 0 1) true true false AOk 3 = Some (0, Returned []) /\
  runDrain (podsOf 10 2 0 0 1) true true false ATooMany 1 = Some (0, Returned []) /\
  runDrain (podsOf 10 2 0 0 1) true false false AOk 3 = Some (12, Returned []).
Proof. vm_compute. repeat split. Qed.

(** getPodVolumeInfos, drain_test.go 896-989. The driver of the tests knows CSI volumes only and calls
    them by their handle. *)
Example volume_infos :
  getPodVolumeInfos bound known [] = [] /\
  getPodVolumeInfos bound known [pod "foo" "bar0" []; pod "foo" "bar1" []] = [("foo/bar0", []); ("foo/bar1", [])] /\
  getPodVolumeInfos bound (fun v => Some (v ++ "-id")%string) [pod "foo" "bar" ["exclusive-0"] ]
    = [("foo/bar", [("exclusive-0", "exclusive-0-id")])] /\
  getPodVolumeInfos bound known (podsWithPV 2 2 1 1 "foo" "bar" "exclusive" "shared")
    = [("foo/bar0", [("exclusive0-0", "exclusive0-0")]); ("foo/bar1", [("exclusive1-0", "exclusive1-0")])] /\
  getPodVolumeInfos bound (fun _ => Some "") [pod "foo" "bar" ["exclusive-0"] ] = [("foo/bar", [])] /\
  getPodVolumeInfos (fun _ _ _ => PvcMissing) known [pod "foo" "bar" ["exclusive-0"] ] = [("foo/bar", [])] /\
  getPodVolumeInfos bound (fun _ => None) [pod "foo" "bar" ["exclusive-0"] ] = [("foo/bar", [])].
Proof. vm_compute. repeat split. Qed.
