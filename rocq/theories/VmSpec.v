(** Specification of what a machine's VMs are allowed to be: a provider that tells the
    truth, and counts over the log. *)
Require Import Coq.ZArith.ZArith Coq.Lists.List Coq.Strings.String Coq.Bool.Bool.
From Verif Require Import CodesModel MachModel LifeModel LifeSpec.
Import ListNotations.
Open Scope string_scope.
Open Scope list_scope.
Open Scope Z_scope.

(** Some VMs may be gone, none is new. *)
Definition shrunk (vms vms' : list string) : Prop := exists keep, vms' = filter keep vms.

(** The status call: a reported VM exists, "not found" means that there is none, and the
    call is implemented. Any other error may occur at any time. *)
Definition status_true (vms : list string) (r : Reply) : Prop :=
  match r with
  | POk _ pid _ => In pid vms
  | PFail text resp =>
      snd (FromError text) = true ->
      s_code (fst (FromError text)) <> cUnimplemented /\
      (s_code (fst (FromError text)) = cNotFound -> vms = []) /\
      (s_code (fst (FromError text)) = cUninitialized -> exists node pid lks, resp = Some (node, pid, lks) /\ In pid vms)
  | _ => True
  end.

(** The creation call: a success means one more VM; a failure may leave one behind. *)
Definition create_true (vms : list string) (r : Reply) (vms' : list string) : Prop :=
  match r with
  | POk _ pid _ => vms' = pid :: vms
  | PFail _ _ => vms' = vms \/ exists pid, vms' = pid :: vms
  | _ => vms' = vms
  end.

(** The deletion call: if the VM is reported gone, it is; without a provider ID the VMs
    with the machine's name are meant. *)
Definition delete_true (pid : string) (vms : list string) (r : Reply) (vms' : list string) : Prop :=
  shrunk vms vms' /\ (vm_gone r -> ~ In pid vms' /\ (pid = "" -> vms' = [])).

(** A step in which the provider tells the truth. VMs may vanish by themselves, but come
    into being by creation calls only. *)
Definition truthful (w : World) (op : Op) : Prop :=
  match op with
  | OStep t r _ vms =>
      match (if t then w_t w else w_c w) with
      | Some (Do (CGetStatus _) _) => status_true (w_vms w) r
      | Some (Do (CCreate _) _) => create_true (w_vms w) r vms
      | Some (Do (CDelete m) _) => delete_true (mo_pid m) (w_vms w) r vms
      | _ => True
      end
  | OOrphan pid r vms => delete_true pid (w_vms w) r vms
  | OVms vms => shrunk (w_vms w) vms
  | _ => True
  end.

(** A history with a truthful provider. *)
Fixpoint truthful_run (cf : Cfg) (w : World) (ops : list Op) : Prop :=
  match ops with
  | [] => True
  | op :: r => truthful w op /\ truthful_run cf (step cf w op) r
  end.

(** VMs do not vanish by themselves. *)
Definition steady (op : Op) : Prop := match op with OVms _ => False | _ => True end.

(** Successful creation calls, and deletion calls, in a log. *)
Definition created (e : Event) : bool := match e with (_, CCreate _, POk _ _ _) => true | _ => false end.
Definition deleting (e : Event) : bool := match e with (_, CDelete _, _) => true | _ => false end.
Definition count (f : Event -> bool) (log : list Event) : nat := List.length (filter f log).
