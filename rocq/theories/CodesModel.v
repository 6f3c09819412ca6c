(** Error codes of the provider drivers and their text form.
    Models pkg/util/provider/machinecodes/codes/codes.go 28-181, code_string.go 29-70
    and status/status.go 40-151.
    Simplification: Go walks over runes; here the text is a sequence of bytes. The two
    agree on valid UTF-8, where the bytes of '[' and ']' only stand for themselves. *)
Require Import Coq.ZArith.ZArith Coq.NArith.NArith Coq.Lists.List Coq.Strings.String Coq.Strings.Ascii Coq.Bool.Bool.
Require Import Coq.Numbers.DecimalString.
Import ListNotations.
Open Scope list_scope.
Open Scope string_scope.

(** codes.go 28-152: a code is a uint32, the listed values have a name
    (code_string.go 29-70 and the map in codes.go 154-173 list the same pairs). *)
Definition codeNames : list (N * string) :=
  [(0%N, "OK"); (1%N, "Canceled"); (2%N, "Unknown"); (3%N, "InvalidArgument"); (4%N, "DeadlineExceeded");
   (5%N, "NotFound"); (6%N, "AlreadyExists"); (7%N, "PermissionDenied"); (8%N, "ResourceExhausted");
   (9%N, "FailedPrecondition"); (10%N, "Aborted"); (11%N, "OutOfRange"); (12%N, "Unimplemented");
   (13%N, "Internal"); (14%N, "Unavailable"); (15%N, "DataLoss"); (16%N, "Unauthenticated"); (17%N, "Uninitialized")].

(** codes.go 42: Unknown. *)
Definition cUnknown : N := 2%N.
(** codes.go 55: DeadlineExceeded. *)
Definition cDeadlineExceeded : N := 4%N.
(** codes.go 59: NotFound. *)
Definition cNotFound : N := 5%N.
(** codes.go 104: Aborted. *)
Definition cAborted : N := 10%N.
(** codes.go 125: Unimplemented. *)
Definition cUnimplemented : N := 12%N.
(** codes.go 139: Unavailable. *)
Definition cUnavailable : N := 14%N.
(** codes.go 151: Uninitialized. *)
Definition cUninitialized : N := 17%N.

(** code_string.go 29-70. *)
Definition codeString (c : N) : string :=
  match find (fun p => N.eqb (fst p) c) codeNames with
  | Some (_, s) => s
  | None => "Code(" ++ NilZero.string_of_uint (N.to_uint c) ++ ")"
  end.

(** codes.go 175-181. *)
Definition StringToCode (s : string) : N :=
  match find (fun p => String.eqb (snd p) s) codeNames with
  | Some (c, _) => c
  | None => cUnknown
  end.

(** status.go 39-63: a status is a code and a message. *)
Record Status := mkStatus { s_code : N; s_msg : string }.

(** status.go 74-76: the text form. *)
Definition errorText (s : Status) : string :=
  "machine codes error: code = [" ++ codeString (s_code s) ++ "] message = [" ++ s_msg s ++ "]".

(** The byte '['. status.go 127. *)
Definition lbr : ascii := "["%char.
(** The byte ']'. status.go 130. *)
Definition rbr : ascii := "]"%char.

(** status.go 120-145: one pass; [decoded] and [temp] are kept in order, [temp]
    without the outermost opening bracket (line 137 cuts it off again, together with
    the closing one). *)
Fixpoint scan (decoded : list string) (temp : string) (counter : nat) (s : string) : list string :=
  match s with
  | EmptyString => decoded
  | String a r =>
      if Ascii.eqb a lbr then
        match counter with
        | O => scan decoded "" 1 r
        | S _ => scan decoded (temp ++ String a "") (S counter) r
        end
      else if Ascii.eqb a rbr then
        match counter with
        | O => scan decoded temp O r
        | S O => scan (decoded ++ [temp])%list "" O r
        | S k => scan decoded (temp ++ String a "") k r
        end
      else
        match counter with
        | O => scan decoded temp O r
        | S _ => scan decoded (temp ++ String a "") counter r
        end
  end.

(** status.go 120-151: exactly two groups, else an error. *)
Definition findCodeAndMessage (s : string) : option (string * string) :=
  match scan [] "" 0 s with
  | [c; m] => Some (c, m)
  | _ => None
  end.

(** status.go 100-118, for a non-nil error with the given text. *)
Definition FromError (text : string) : Status * bool :=
  match findCodeAndMessage text with
  | Some (c, m) => (mkStatus (StringToCode c) m, true)
  | None => (mkStatus cUnknown text, false)
  end.
