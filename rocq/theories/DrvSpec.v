(* What a driver has to keep to so that the machine controller does not crash (C119). *)
Require Import List String NArith.
From Verif Require Import CodesModel MachModel LifeModel DrvModel.
Import ListNotations.
Open Scope string_scope.
Open Scope list_scope.

(* The driver answers its calls, the others answer theirs. *)
Definition fits (c : Call) (a : Ans) : Prop :=
  if toDriver c then exists d, a = ADrv d else exists r, a = AOther r.

(* The calls [h] with their answers lead from one point of a reconcile to another. *)
Inductive path : prog -> list (Call * Ans) -> prog -> Prop :=
| path_here : forall p, path p [] p
| path_on : forall c k a h q, fits c a -> path (answer c k a) h q -> path (Do c k) ((c, a) :: h) q.

(* After the calls [h] the reconcile calls [c]. *)
Definition asks (p : prog) (h : list (Call * Ans)) (c : Call) : Prop := exists k, path p h (Do c k).

(* The text of an error says the code. *)
Definition says (text : string) (code : N) : Prop := exists m, FromError text = (mkStatus code m, true).

(* The answers that bring the controller down: neither a response nor an error, unless a VM
   was to be deleted; and, while a machine is created, the error that the VM has not been
   initialized without the response that goes with it. *)
Definition crashing (creating : bool) (c : Call) (a : Ans) : Prop :=
  (a = ADrv (mkRaw None None) /\ ((exists m, c = CGetStatus m) \/ (exists m, c = CCreate m) \/ (exists m, c = CInit m))) \/
  (creating = true /\ exists m text, c = CGetStatus m /\ a = ADrv (mkRaw None (Some text)) /\ says text cUninitialized).

(* A driver that gives a response with every success and with the error Uninitialized of
   GetMachineStatus. *)
Definition wellBehaved (c : Call) (d : Raw) : Prop :=
  (ra_err d = None -> ra_resp d <> None) /\
  ((exists m, c = CGetStatus m) -> forall text, ra_err d = Some text -> says text cUninitialized -> ra_resp d <> None).

(* A step of a history in which the machine queue is not answered with Uninitialized
   without a response. *)
Definition mannered (o : Op) : Prop :=
  match o with OStep false (PFail text None) _ _ => ~ says text cUninitialized | _ => True end.

(* The text is part of the other one. *)
Definition within (k s : string) : Prop := exists a b, s = (a ++ k ++ b)%string.

(* The deletion of the machine has come to the drain of its node. *)
Definition atDrain (m : MObj) : Prop :=
  In MCM (mo_fins m) /\ phase m = "Terminating" /\ nodeName m <> "" /\ within InitiateDrain (desc m) /\ ~ within GetVMStatus (desc m).
