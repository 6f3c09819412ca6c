(* What a user expects of user data (C37) and bootstrap tokens (C38). *)
Require Import List String Ascii Bool Arith ZArith.
From Verif Require Import MetaModel MetaSpec UserModel.
Import ListNotations.
Open Scope string_scope.
Open Scope list_scope.
Open Scope nat_scope.

(* [p] occurs somewhere in [s]. *)
Definition Occurs (p s : string) : Prop := exists a b, s = (a ++ p ++ b)%string.

(* User data as the author of the class thinks of them. *)
Inductive Item := Txt (s : string) | Tok | Nam.

(* The text with a given token and name filled in. *)
Fixpoint render (token name : string) (l : list Item) : string :=
  match l with
  | [] => ""
  | Txt s :: l' => (s ++ render token name l')%string
  | Tok :: l' => (token ++ render token name l')%string
  | Nam :: l' => (name ++ render token name l')%string
  end.

(* Characters of a string. *)
Fixpoint hasChar (c : ascii) (s : string) : Prop :=
  match s with EmptyString => False | String x s' => x = c \/ hasChar c s' end.

(* Lower-case letters and digits. *)
Definition lowerAlnum (c : ascii) : Prop :=
  48 <= nat_of_ascii c <= 57 \/ 97 <= nat_of_ascii c <= 122.

(* Characters of object names: also "-" and ".". *)
Definition nameChar (c : ascii) : Prop :=
  lowerAlnum c \/ c = "-"%char \/ c = "."%char.

(* A machine name that the API server accepts and that has at least five bytes,
   as every name made by a machine set has. *)
Definition machineName (n : string) : Prop :=
  5 <= String.length n /\ forall c, hasChar c n -> nameChar c.

(* Characters with no meaning of their own in a URL (RFC 3986, 2.3). *)
Definition urlPlain (c : ascii) : Prop :=
  let n := nat_of_ascii c in
  48 <= n <= 57 \/ 65 <= n <= 90 \/ 97 <= n <= 122 \/ c = "-"%char \/ c = "."%char \/ c = "_"%char \/ c = "~"%char.

(* Reading the value of a URL query: "+" is a space, "%XY" the byte with that hexadecimal code. *)
Definition hexVal (c : ascii) : option nat :=
  let n := nat_of_ascii c in
  if (48 <=? n) && (n <=? 57) then Some (n - 48)
  else if (65 <=? n) && (n <=? 70) then Some (n - 55)
  else if (97 <=? n) && (n <=? 102) then Some (n - 87) else None.
Fixpoint queryValue (s : string) : option string :=
  match s with
  | EmptyString => Some EmptyString
  | String c s1 =>
      if Ascii.eqb c "%" then
        match s1 with
        | String a (String b r) =>
            match hexVal a, hexVal b, queryValue r with
            | Some x, Some y, Some t => Some (String (ascii_of_nat (16 * x + y)) t)
            | _, _, _ => None
            end
        | _ => None
        end
      else match queryValue s1 with
           | Some t => Some (String (if Ascii.eqb c "+" then " "%char else c) t)
           | None => None
           end
  end.

(* The documented form of a bootstrap token: six characters, a dot, sixteen
   characters. *)
Definition tokenText (t : string) : Prop :=
  exists id key, t = (id ++ "." ++ key)%string /\
    String.length id = 6 /\ String.length key = 16 /\
    (forall c, hasChar c id -> lowerAlnum c) /\ (forall c, hasChar c key -> lowerAlnum c).

(* The documented placeholders, plain and URL-encoded. *)
Definition tokenPH : string := "<<BOOTSTRAP_TOKEN>>".
Definition tokenPHenc : string := "%3C%3CBOOTSTRAP_TOKEN%3E%3E".
Definition namePH : string := "<<MACHINE_NAME>>".
Definition namePHenc : string := "%3C%3CMACHINE_NAME%3E%3E".
Definition isPlaceholder (x : string) : Prop :=
  x = tokenPH \/ x = tokenPHenc \/ x = namePH \/ x = namePHenc.

(* The spelling of a placeholder that user data [u] use: [plain] if it occurs,
   otherwise [encoded]. *)
Definition spelling (plain encoded u ph : string) : Prop :=
  (Occurs plain u /\ ph = plain) \/ (~ Occurs plain u /\ ph = encoded).

(* The three bytes of a name on which its token depends: all but the last two of
   the last five. *)
Definition idPart (n : string) : string := substring (String.length n - 5) 3 n.

(* Every secret carries the identifier that is part of its name and a token of
   the documented form. *)
Definition storeOK (st : Store) : Prop :=
  forall k s, st k = Some s ->
    k = ("bootstrap-token-" ++ tkId s)%string /\
    tokenText (tkId s ++ "." ++ tkKey s)%string /\ String.length (tkId s) = 6.

(* Operations that remove the secret called [k]. *)
Definition removes (k : string) (o : TokOp) : Prop :=
  match o with
  | Creates _ _ _ => False
  | Joins _ n => exists id, getTokenIDAndSecretName n = Some (id, k)
  | Cleaned k' => k' = k
  end.

(* Pieces of text with a separator between them. *)
Fixpoint sjoin (sep : string) (l : list string) : string :=
  match l with
  | [] => ""
  | [p] => p
  | p :: l' => (p ++ sep ++ sjoin sep l')%string
  end.

(* No proper non-empty end of [s] is a beginning of [s]. *)
Definition borderless (s : string) : Prop :=
  forall x q y, s = (x ++ q)%string -> s = (q ++ y)%string -> x = "" \/ q = "".
