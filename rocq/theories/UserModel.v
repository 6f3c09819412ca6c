(* Model of the user data handed to the provider and of bootstrap tokens.
   Source: pkg/util/provider/machinecontroller/userdata.go,
   pkg/util/provider/machinecontroller/machine.go (start of
   triggerCreationFlow), machine_util.go (deletion of the token on joining). *)
Require Import List String Ascii Bool Arith ZArith.
From Verif Require Import MetaModel.
Import ListNotations.
Open Scope string_scope.
Open Scope list_scope.
Open Scope nat_scope.

(* ---- strings of bytes ---- *)

(* strings.Contains (userdata.go 64, 67, 92, 95). *)
Fixpoint Contains (s p : string) : bool :=
  prefix p s || match s with EmptyString => false | String _ s' => Contains s' p end.

(* The scan of strings.ReplaceAll (userdata.go 66, 69, 94, 97) for a non-empty
   [old]: [skip] bytes of the match just replaced are still to be passed over. *)
Fixpoint scan (old new : string) (skip : nat) (s : string) : string :=
  match s with
  | EmptyString => EmptyString
  | String c s' =>
      match skip with
      | S k => scan old new k s'
      | 0 => if prefix old s then (new ++ scan old new (String.length old - 1) s')%string
             else String c (scan old new 0 s')
      end
  end.

(* strings.ReplaceAll (userdata.go 66, 69, 94, 97); the callers' [old] is never
   empty. *)
Definition ReplaceAll (s old new : string) : string := scan old new 0 s.

(* Upper-case hexadecimal digit, as written by url.QueryEscape (userdata.go 36-38). *)
Definition upperHex (n : nat) : ascii :=
  ascii_of_nat (if n <? 10 then 48 + n else 55 + n).

(* A byte that url.QueryEscape leaves alone: letters, digits and "-_.~"
   (net/url shouldEscape; used at userdata.go 36, 38, 69, 97). *)
Definition unreserved (c : ascii) : bool :=
  let n := nat_of_ascii c in
  ((48 <=? n) && (n <=? 57)) || ((65 <=? n) && (n <=? 90)) || ((97 <=? n) && (n <=? 122))
  || (n =? 45) || (n =? 95) || (n =? 46) || (n =? 126).

(* url.QueryEscape (userdata.go 36, 38, 69, 97): a space becomes "+". *)
Fixpoint QueryEscape (s : string) : string :=
  match s with
  | EmptyString => EmptyString
  | String c s' =>
      if unreserved c then String c (QueryEscape s')
      else if nat_of_ascii c =? 32 then String "+" (QueryEscape s')
      else String "%" (String (upperHex (nat_of_ascii c / 16))
             (String (upperHex (nat_of_ascii c mod 16)) (QueryEscape s')))
  end.

(* BootstrapTokenPlaceholder, MachineNamePlaceholder (userdata.go 27-32). *)
Definition BootstrapTokenPlaceholder : string := "<<BOOTSTRAP_TOKEN>>".
(* MachineNamePlaceholder (userdata.go 31). *)
Definition MachineNamePlaceholder : string := "<<MACHINE_NAME>>".
(* urlEncodedBootstrapTokenPlaceholder (userdata.go 36). *)
Definition urlEncodedBootstrapTokenPlaceholder : string := QueryEscape BootstrapTokenPlaceholder.
(* urlEncodedMachineNamePlaceholder (userdata.go 38). *)
Definition urlEncodedMachineNamePlaceholder : string := QueryEscape MachineNamePlaceholder.

(* The if/else-if of both functions (userdata.go 64-72 and 92-100). *)
Definition fill (plain encoded value u : string) : string :=
  if Contains u plain then ReplaceAll u plain value
  else if Contains u encoded then ReplaceAll u encoded (QueryEscape value)
  else u.

(* The string part of addBootstrapTokenToUserData (userdata.go 64-72). *)
Definition fillToken (token u : string) : string :=
  fill BootstrapTokenPlaceholder urlEncodedBootstrapTokenPlaceholder token u.

(* The string part of addMachineNameToUserData (userdata.go 92-100). *)
Definition fillName (name u : string) : string :=
  fill MachineNamePlaceholder urlEncodedMachineNamePlaceholder name u.

(* ---- token identifiers ---- *)

(* Lower-case hexadecimal digit of hex.EncodeToString (userdata.go 170). *)
Definition lowerHex (n : nat) : ascii :=
  ascii_of_nat (if n <? 10 then 48 + n else 87 + n).

(* hex.EncodeToString (userdata.go 170). *)
Fixpoint EncodeToString (s : string) : string :=
  match s with
  | EmptyString => EmptyString
  | String c s' =>
      String (lowerHex (nat_of_ascii c / 16)) (String (lowerHex (nat_of_ascii c mod 16)) (EncodeToString s'))
  end.

(* getTokenIDAndSecretName (userdata.go 169-173): the slice expression panics if
   the name has fewer than five bytes ([None]). *)
Definition getTokenIDAndSecretName (name : string) : option (string * string) :=
  if String.length name <? 5 then None
  else
    let id := substring 0 6 (EncodeToString (substring (String.length name - 5) 5 name)) in
    Some (id, ("bootstrap-token-" ++ id)%string).

(* The characters of a token's secret (userdata.go 113). *)
Definition charset : string := "0123456789abcdefghijklmnopqrstuvwxyz".

(* generateRandomStringFromCharset (userdata.go 156-167): [draws] are the numbers
   drawn by rand.Int, each below the size of the charset; [None] in the place of
   a draw is an error of the random source. *)
Fixpoint randomString (n : nat) (allowed : string) (draws : list (option nat)) : option string :=
  match n with
  | 0 => Some EmptyString
  | S n' =>
      match draws with
      | Some d :: ds =>
          match String.get d allowed, randomString n' allowed ds with
          | Some c, Some s => Some (String c s)
          | _, _ => None
          end
      | _ => None
      end
  end.

(* The data of a bootstrap-token secret that matter here (userdata.go 117-125):
   token-id, token-secret, expiration (in seconds). *)
Record TokSecret := mkTok { tkId : string; tkKey : string; tkExpires : Z }.

(* The bootstrap-token secrets in kube-system of the target cluster
   (userdata.go 110, 136, 146). *)
Definition Store := string -> option TokSecret.

(* Writing one secret (userdata.go 136). *)
Definition putTok (k : string) (v : option TokSecret) (st : Store) : Store :=
  fun x => if String.eqb x k then v else st x.

(* The end of a call: value, error, or panic. userdata.go 41-173. *)
Inductive Out (A : Type) := Good (a : A) | Bad | Crash.
Arguments Good {A} a.
Arguments Bad {A}.
Arguments Crash {A}.

(* What the environment contributes to one creation (userdata.go 110-136): the
   failures of Get and Create, the draws, the time and the creation timeout. *)
Record TokEnv := mkTokEnv {
  teGetFails : bool;
  teDraws : list (option nat);
  teCreateFails : bool;
  teNow : Z;
  teTimeout : Z
}.

(* getBootstrapTokenOrCreateIfNotExist (userdata.go 107-142).  A Get answers from
   the store or fails with an error other than NotFound. *)
Definition getBootstrapTokenOrCreateIfNotExist (e : TokEnv) (name : string) (st : Store)
  : Out TokSecret * Store :=
  match getTokenIDAndSecretName name with
  | None => (Crash, st)
  | Some (id, secretName) =>
      if teGetFails e then (Bad, st)
      else match st secretName with
           | Some s => (Good s, st)
           | None =>
               match randomString 16 charset (teDraws e) with
               | None => (Bad, st)
               | Some key =>
                   if teCreateFails e then (Bad, st)
                   else let s := mkTok id key (teNow e + teTimeout e) in
                        (Good s, putTok secretName (Some s) st)
               end
           end
  end.

(* bootstraptokenutil.TokenFromIDAndSecret (userdata.go 59-62). *)
Definition TokenFromIDAndSecret (id key : string) : string := (id ++ "." ++ key)%string.

(* addBootstrapTokenToUserData (userdata.go 41-77) on the data of the copied
   secret; also gives the token used. *)
Definition addBootstrapTokenToUserData (e : TokEnv) (name : string) (data : Map) (st : Store)
  : Out (Map * string) * Store :=
  match get "userData" data with
  | None => (Bad, st)
  | Some u =>
      match getBootstrapTokenOrCreateIfNotExist e name st with
      | (Good s, st') =>
          let token := TokenFromIDAndSecret (tkId s) (tkKey s) in
          (Good (put "userData" (fillToken token u) data, token), st')
      | (Bad, st') => (Bad, st')
      | (Crash, st') => (Crash, st')
      end
  end.

(* addMachineNameToUserData (userdata.go 79-105). *)
Definition addMachineNameToUserData (name : string) (data : Map) : Out Map :=
  match get "userData" data with
  | None => Bad
  | Some u => Good (put "userData" (fillName name u) data)
  end.

(* The beginning of triggerCreationFlow (machine.go 457-465): the data handed to
   the provider, and the token in them. *)
Definition prepareSecret (e : TokEnv) (name : string) (data : Map) (st : Store)
  : Out (Map * string) * Store :=
  match addBootstrapTokenToUserData e name data st with
  | (Good (d, token), st') =>
      (match addMachineNameToUserData name d with
       | Good d' => Good (d', token)
       | Bad => Bad
       | Crash => Crash
       end, st')
  | (r, st') => (r, st')
  end.

(* deleteBootstrapToken (userdata.go 144-152), called when a created machine joins
   (machine_util.go 674-678, error only logged); [fails] is a failure of Delete.
   [None]: the slice expression panics. *)
Definition deleteBootstrapToken (fails : bool) (name : string) (st : Store) : option Store :=
  match getTokenIDAndSecretName name with
  | None => None
  | Some (_, secretName) => Some (if fails then st else putTok secretName None st)
  end.

(* What happens to tokens: a creation pass of machine [name] (machine.go 457-465),
   its joining (machine_util.go 674-678), and the removal of a token by somebody
   else, as by the token cleaner of the cluster. *)
Inductive TokOp :=
| Creates (e : TokEnv) (name : string) (data : Map)
| Joins (fails : bool) (name : string)
| Cleaned (secretName : string).

(* One such step; a machine that gets a token is recorded with it (machine.go
   457-465, machine_util.go 674-678). *)
Definition tokStep (st : Store) (o : TokOp) : Store * list (string * string) :=
  match o with
  | Creates e name data =>
      match prepareSecret e name data st with
      | (Good (_, token), st') => (st', [(name, token)])
      | (_, st') => (st', [])
      end
  | Joins fails name =>
      (match deleteBootstrapToken fails name st with Some st' => st' | None => st end, [])
  | Cleaned k => (putTok k None st, [])
  end.

(* A sequence of such steps: the store at the end and all tokens handed out, in
   order (machine.go 457-465, machine_util.go 674-678). *)
Fixpoint tokRun (st : Store) (ops : list TokOp) : Store * list (string * string) :=
  match ops with
  | [] => (st, [])
  | o :: ops' =>
      let '(st1, h1) := tokStep st o in
      let '(st2, h2) := tokRun st1 ops' in
      (st2, h1 ++ h2)
  end.
