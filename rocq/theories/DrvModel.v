(** Answers of a driver as Go values, a pointer to a response beside an error, and what the
    machine controller reads of them. Models where pkg/util/provider/machinecontroller
    (machine.go 468-581, 662-696, machine_util.go 503-543, 1311-1347, 1733-1736,
    machine_safety.go 236-249, 283-292) and drain.go 1013-1022 follow the pointer.
    Simplification: an error is its text, as in LifeModel. *)
Require Import Coq.Lists.List Coq.Strings.String.
From Verif Require Import CodesModel MachModel LifeModel.
Import ListNotations.
Open Scope string_scope.

(** The fields of the responses that the controller reads. driver/driver.go 51-130. *)
Record Resp := mkResp { rs_node : string; rs_pid : string; rs_lks : string }.

(** What a driver call returns. driver/driver.go 18-41. *)
Record Raw := mkRaw { ra_resp : option Resp; ra_err : option string }.

(** The responses of DeleteMachine are not followed (machine.go 526, machine_safety.go 283)
    or checked first (machine_util.go 1345). *)
Definition checked (c : Call) : bool := match c with CDelete _ => true | _ => false end.

(** What the code after a call of the driver goes on with; [None]: it follows a nil pointer
    (machine.go 501, 579, 695, machine_util.go 1735). With an error, the pointer is looked
    at in machine_util.go 517, 1345 (after a check) and machine.go 569 (without, the
    [Panic] of [triggerCreationFlow]). *)
Definition taken (c : Call) (a : Raw) : option Reply :=
  match ra_err a, ra_resp a with
  | Some e, r => Some (PFail e (option_map (fun x => (rs_node x, rs_pid x, rs_lks x)) r))
  | None, Some x => Some (POk (rs_node x) (rs_pid x) (rs_lks x))
  | None, None => if checked c then Some (POk "" "" "") else None
  end.

(** An answer: of a driver, or of somebody else. machine.go 136-761. *)
Inductive Ans := ADrv (a : Raw) | AOther (r : Reply).

(** The calls that go to the driver. machine.go 468, 495, 526, 662, machine_util.go 1311, 1733. *)
Definition toDriver (c : Call) : bool :=
  match c with CGetStatus _ | CCreate _ | CInit _ | CDelete _ => true | _ => false end.

(** One call answered. machine.go 136-761. *)
Definition answer (c : Call) (k : Reply -> prog) (a : Ans) : prog :=
  match a with
  | AOther r => k r
  | ADrv d => match taken c d with Some r => k r | None => Panic end
  end.

(** machine_safety.go 236-257: the VMs that are looked at, or the reconcile ends with an
    error; [None]: a nil pointer is followed in line 247. *)
Definition listed (err : option string) (resp : option (list (string * string))) : option (option (list (string * string))) :=
  match err with Some _ => Some None | None => match resp with Some l => Some (Some l) | None => None end end.

(** drain.go 1013-1022: the volume ID, or an error; [None]: a nil pointer is followed in
    line 1018. *)
Definition volumeID (err : option string) (resp : option (list string)) : option (option string) :=
  match err with
  | Some _ => Some None
  | None => match resp with None => None | Some [] => Some (Some "") | Some (v :: _) => Some (Some v) end
  end.
