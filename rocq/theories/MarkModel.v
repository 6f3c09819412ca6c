(** The mark of tainted MachineSets: the loops around reading and updating a MachineSet at the end of
    taintNodesBackingMachineSets (pkg/controller/deployment_rolling.go 294-375) and of
    removeTaintNodesBackingMachineSet (pkg/controller/deployment_rollback.go 144-230), with time in
    milliseconds, failing calls and other writers.
    External: the API server (optimistic locking) and the typed client, which returns a new, empty object
    together with an error, and an error without a request for an empty name (client-go gentype, request). *)
Require Import Coq.ZArith.ZArith Coq.Lists.List Coq.Strings.String Coq.Bool.Bool Coq.Arith.PeanoNat.
Import ListNotations.
Open Scope string_scope.
Open Scope list_scope.
Open Scope Z_scope.

(** Namespace and name of a MachineSet; deployment_rolling.go 340. *)
Definition Key : Type := (string * string)%type.
(** Equality of keys; not in /repo (server lookups by name, deployment_rolling.go 340). *)
Definition Key_eq_dec : forall a b : Key, {a = b} + {a <> b}.
Proof. decide equality; apply string_dec. Defined.

(** A stored MachineSet: its annotations, its version, and all the rest of it (deployment_rolling.go 340-357). *)
Record Ob := mkOb { o_ann : list (string * string); o_rv : nat; o_rest : nat }.

(** Go's maps, as far as the loops use them: reading, setting and deleting one key
    (deployment_rolling.go 297, 351-355; deployment_rollback.go 146, 209). *)
Fixpoint look (a : string) (l : list (string * string)) : option string :=
  match l with [] => None | (k, v) :: r => if String.eqb k a then Some v else look a r end.
(** Deleting a key: deployment_rollback.go 209. *)
Fixpoint drop (a : string) (l : list (string * string)) : list (string * string) :=
  match l with [] => [] | (k, v) :: r => if String.eqb k a then drop a r else (k, v) :: drop a r end.
(** Setting a key: deployment_rolling.go 352-355. *)
Definition put (a v : string) (l : list (string * string)) : list (string * string) := (a, v) :: drop a l.

(** PreferNoScheduleKey, pkg/controller/deployment_util.go 111-113. *)
Definition MarkKey : string := "deployment.machine.sapcloud.io/prefer-no-schedule".

(** maxRetryDeadline and conflictRetryInterval, deployment_rolling.go 42-45. *)
Definition Deadline : Z := 60000.
(** conflictRetryInterval, deployment_rolling.go 44. *)
Definition Interval : Z := 5000.

(** Where a call is. [Begin]: listing, claiming and the nodes (deployment_rolling.go 302-336;
    deployment_rollback.go 153-191). [Get], [Put]: the two requests; [Put] holds the changed copy.
    [Sleep]: time.Sleep between two attempts. [End]: returned, with an error or without. *)
Inductive Pc := Begin | Get | Put (key : Key) (c : Ob) | Sleep (till : Z) | End (err : bool).

(** The world: the API server; the variable machineSet ([None]: the empty object that came with an error;
    deployment_rolling.go 340, deployment_rollback.go 195, 211); the sets still to do; the deadline; when
    this stage began; the next version. *)
Record W := mkW { m_srv : Key -> option Ob; m_hand : option Key; m_todo : list Key; m_pc : Pc;
                  m_now : Z; m_dl : Z; m_since : Z; m_next : nat }.

(** What happens to a request (external): it is answered; it is not carried out; it is carried out and the
    answer is lost. The requests are at deployment_rolling.go 340, 357; deployment_rollback.go 195, 211. *)
Inductive Fate := Fine | Refused | Unanswered.

(** Time passes; somebody else stores or deletes an object (external); the call goes on (deployment_rolling.go
    294-375, deployment_rollback.go 144-230). *)
Inductive Op := Tick (d : Z) | Other (k : Key) (o : option Ob) | Go (f : Fate).

(** External: the API server stores an object under a new version (deployment_rolling.go 357). *)
Definition stored (w : W) (k : Key) (o : option Ob) : Key -> option Ob :=
  fun x => if Key_eq_dec k x then match o with Some b => Some (mkOb (o_ann b) (m_next w) (o_rest b)) | None => None end else m_srv w x.

(** msCopy with the mark (deployment_rolling.go 351-355) or without it (deployment_rollback.go 208-209). *)
Definition changed (rm : bool) (o : Ob) : Ob :=
  mkOb (if rm then drop MarkKey (o_ann o) else put MarkKey "True" (o_ann o)) (o_rv o) (o_rest o).

(** To another stage; deployment_rolling.go 338-370. *)
Definition goto (w : W) (hand : option Key) (p : Pc) : W :=
  mkW (m_srv w) hand (m_todo w) p (m_now w) (m_dl w) (m_now w) (m_next w).
(** A request failed: wait and try again, or give up after the deadline
    (deployment_rolling.go 341-349, 358-366; deployment_rollback.go 196-206, 213-223). *)
Definition failed (w : W) (hand : option Key) : W :=
  goto w hand (if m_now w <? m_dl w then Sleep (m_now w + Interval) else End true).
(** The next set, or done (deployment_rolling.go 295, 368-374; deployment_rollback.go 225-230). *)
Definition next (w : W) : W :=
  match m_todo w with
  | [] => goto w (m_hand w) (End false)
  | k :: r => mkW (m_srv w) (Some k) r Begin (m_now w) (m_dl w) (m_now w) (m_next w)
  end.

(** One step of the call; [rm]: removal of the mark (deployment_rollback.go 144-230), otherwise
    deployment_rolling.go 294-375. *)
Definition go (rm : bool) (w : W) (f : Fate) : W :=
  match m_pc w with
  | Begin =>
      match f with
      | Fine => mkW (m_srv w) (m_hand w) (m_todo w) Get (m_now w) (m_now w + Deadline) (m_now w) (m_next w)
      | _ => goto w (m_hand w) (End true)
      end
  | Get =>
      match m_hand w, f with
      | Some k, Fine =>
          match m_srv w k with
          | Some o => goto w (Some k) (Put k (changed rm o))
          | None => failed w None
          end
      | _, _ => failed w None
      end
  | Put k c =>
      let ok := match m_srv w k with Some o => Nat.eqb (o_rv o) (o_rv c) | None => false end in
      let hand := if rm then None else m_hand w in
      let w' := mkW (stored w k (Some c)) (m_hand w) (m_todo w) (m_pc w) (m_now w) (m_dl w) (m_since w) (S (m_next w)) in
      match f, ok with
      | Fine, true => next w'
      | Unanswered, true => failed w' hand
      | _, _ => failed w hand
      end
  | Sleep t => if t <=? m_now w then goto w (m_hand w) Get else w
  | End _ => w
  end.
(** One step of the world around one call (deployment_rolling.go 294-375, deployment_rollback.go 144-230). *)
Definition mstep (rm : bool) (w : W) (op : Op) : W :=
  match op with
  | Tick d => mkW (m_srv w) (m_hand w) (m_todo w) (m_pc w) (m_now w + Z.max 0 d) (m_dl w) (m_since w) (m_next w)
  | Other k o => mkW (stored w k o) (m_hand w) (m_todo w) (m_pc w) (m_now w) (m_dl w) (m_since w) (S (m_next w))
  | Go f => go rm w f
  end.

(** The call begins with the sets that are not marked in the view it is given (deployment_rolling.go 295-300),
    or with the one marked set (deployment_rollback.go 146-150). *)
Definition minit (now : Z) (srv : Key -> option Ob) (version : nat) (sets : list Key) : W :=
  next (mkW srv None sets Get now now now version).
