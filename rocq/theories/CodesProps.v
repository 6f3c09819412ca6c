(** Properties of the text form of provider errors: C35, C60. *)
Require Import Coq.NArith.NArith Coq.Lists.List Coq.Strings.String Coq.Strings.Ascii Coq.Bool.Bool Coq.micromega.Lia.
Require Import Coq.Numbers.DecimalString.
From Verif Require Import CodesModel CodesSpec CodesProofs.
Import ListNotations.
Open Scope list_scope.
Open Scope string_scope.

(** C35 for messages with balanced brackets, also when the error is wrapped into text
    without brackets. Partial: the other messages are treated below. *)
Theorem C35_round_trip_partial : forall c m pre post, named_code c -> balanced m -> bracket_free pre -> bracket_free post ->
  FromError (pre ++ errorText (mkStatus c m) ++ post) = (mkStatus c m, true).
Proof. exact round_trip. Qed.
Print Assumptions C35_round_trip_partial.

Lemma ex_balanced : balanced "disk [a[1]] lost".
Proof.
  split; [|reflexivity]. intros p q E.
  repeat (destruct p as [|? p]; [cbn; lia | cbn in E; injection E as <- E]). destruct p; [cbn; lia | discriminate].
Qed.

Example C35_round_trip_case :
  balanced "disk [a[1]] lost" /\
  FromError ("wrapped: " ++ errorText (mkStatus cNotFound "disk [a[1]] lost") ++ " (again)") = (mkStatus cNotFound "disk [a[1]] lost", true).
Proof. exact (conj ex_balanced eq_refl). Qed.

(** C35: no other message survives. *)
Theorem C35_only_balanced : forall c m, named_code c ->
  FromError (errorText (mkStatus c m)) = (mkStatus c m, true) -> balanced m.
Proof. exact only_balanced. Qed.
Print Assumptions C35_only_balanced.

(** C35 fails: one opening bracket in the message makes a NotFound undecodable. *)
Theorem C35_unbalanced_refuted : exists m,
  FromError (errorText (mkStatus cNotFound m)) = (mkStatus cUnknown (errorText (mkStatus cNotFound m)), false).
Proof. exists "no such instance [zone a". reflexivity. Qed.
Print Assumptions C35_unbalanced_refuted.

(** C35 fails: the comment at status.go 70-73 says that brackets added after code and
    message are ignored; they make the error undecodable. *)
Theorem C35_trailing_brackets_refuted : exists post,
  FromError (errorText (mkStatus cNotFound "gone") ++ post) = (mkStatus cUnknown (errorText (mkStatus cNotFound "gone") ++ post), false).
Proof. exists " [request 7]". reflexivity. Qed.
Print Assumptions C35_trailing_brackets_refuted.

(** C60: a decoded code was in the text, in the first of two groups of brackets.
    Partial: it need not have been put there by the status package. *)
Theorem C60_code_from_text_partial : forall text s, FromError text = (s, true) ->
  exists a b m d e, text = a ++ "[" ++ b ++ "]" ++ d ++ "[" ++ m ++ "]" ++ e /\ s_code s = StringToCode b /\ s_msg s = m.
Proof. exact decoded_code. Qed.
Print Assumptions C60_code_from_text_partial.

Example C60_code_from_text_case : FromError "code [Aborted], text [x]" = (mkStatus cAborted "x", true).
Proof. reflexivity. Qed.

(** C60, exactly: the code is the one whose name stands in the first group of brackets; if no code has
    that name, it is Unknown, never success. *)
Theorem C60_code_by_name : forall text s, FromError text = (s, true) ->
  exists a b m d e, text = a ++ "[" ++ b ++ "]" ++ d ++ "[" ++ m ++ "]" ++ e /\ s_msg s = m /\
  (named_code (s_code s) /\ codeString (s_code s) = b \/
   s_code s = 2%N /\ forall c, named_code c -> codeString c <> b).
Proof.
  intros text s H. destruct (decoded_code text s H) as (a & b & m & d & e & T & C & M).
  exists a, b, m, d, e. split; [exact T|]. split; [exact M|]. rewrite C. unfold StringToCode.
  destruct (find (fun p => String.eqb (snd p) b) codeNames) as [[c n]|] eqn:F.
  - left. apply find_some in F. destruct F as (I & E). apply String.eqb_eq in E. cbn [snd] in E. subst n.
    unfold codeNames in I. cbn [In] in I.
    repeat (destruct I as [I | I]; [injection I as <- <-; split; [discriminate | reflexivity] |]). contradiction.
  - right. split; [reflexivity|]. intros c N E. pose proof (find_none _ _ F) as G.
    destruct (code_text c N) as (_ & K). unfold codeString in E.
    destruct (find (fun p => N.eqb (fst p) c) codeNames) as [[c' n]|] eqn:F'.
    + apply find_some in F'. destruct F' as (I & _). specialize (G _ I). cbn [snd] in G.
      subst n. rewrite String.eqb_refl in G. discriminate.
    + unfold named_code in N. pose proof (find_none _ _ F') as G'.
      assert (X : In c (map fst codeNames)).
      { cbn [codeNames map fst].
        assert (D : (c = 0 \/ c = 1 \/ c = 2 \/ c = 3 \/ c = 4 \/ c = 5 \/ c = 6 \/ c = 7 \/ c = 8 \/ c = 9 \/
                     c = 10 \/ c = 11 \/ c = 12 \/ c = 13 \/ c = 14 \/ c = 15 \/ c = 16 \/ c = 17)%N) by lia.
        cbn. intuition. }
      apply in_map_iff in X. destruct X as (q & X1 & X2). specialize (G' q X2). cbn beta in G'. subst c.
      rewrite N.eqb_refl in G'. discriminate.
Qed.
Print Assumptions C60_code_by_name.

Example C60_code_by_name_case : FromError "code [Gone], text [x]" = (mkStatus cUnknown "x", true).
Proof. reflexivity. Qed.

(** C60: text without brackets is never given a code. *)
Theorem C60_plain_text : forall text, bracket_free text -> FromError text = (mkStatus cUnknown text, false).
Proof.
  intros text [A B]. unfold FromError, findCodeAndMessage.
  rewrite <- (append_nil_r text) at 1. rewrite scan_out by exact B. reflexivity.
Qed.
Print Assumptions C60_plain_text.

Example C60_plain_text_case : bracket_free "connection refused" /\ FromError "connection refused" = (mkStatus cUnknown "connection refused", false).
Proof. repeat split. Qed.

(** C60 fails: a plain error that happens to have two groups of brackets is taken for a
    status of the provider, here for one that says the VM does not exist. *)
Theorem C60_foreign_error_refuted : exists text,
  (forall c m, text <> errorText (mkStatus c m)) /\ FromError text = (mkStatus cNotFound "zone-a", true).
Proof. exists "tag lookup [NotFound] at endpoint [zone-a]". split; [intros c m H; discriminate | reflexivity]. Qed.
Print Assumptions C60_foreign_error_refuted.

(** C35: the texts of the codes, which end up in the status of machines, are the names the drivers and the
    dashboards know; a code without name is shown with its number. *)
Theorem C35_names :
  map codeString [0; 1; 2; 3; 4; 5; 6; 7; 8; 9; 10; 11; 12; 13; 14; 15; 16; 17]%N =
    ["OK"; "Canceled"; "Unknown"; "InvalidArgument"; "DeadlineExceeded"; "NotFound"; "AlreadyExists"; "PermissionDenied"; "ResourceExhausted";
     "FailedPrecondition"; "Aborted"; "OutOfRange"; "Unimplemented"; "Internal"; "Unavailable"; "DataLoss"; "Unauthenticated"; "Uninitialized"] /\
  map codeString [cUnknown; cDeadlineExceeded; cNotFound; cAborted; cUnimplemented; cUnavailable; cUninitialized] =
    ["Unknown"; "DeadlineExceeded"; "NotFound"; "Aborted"; "Unimplemented"; "Unavailable"; "Uninitialized"] /\
  (forall c, (17 < c)%N -> codeString c = "Code(" ++ NilZero.string_of_uint (N.to_uint c) ++ ")").
Proof.
  split; [reflexivity|]. split; [reflexivity|]. intros c H. unfold codeString.
  destruct (find (fun p => N.eqb (fst p) c) codeNames) as [[k s]|] eqn:F; [|reflexivity].
  apply find_some in F. destruct F as (I & E). apply N.eqb_eq in E. cbn [fst] in E. subst k. exfalso.
  assert (B : forallb (fun p => N.leb (fst p) 17) codeNames = true) by reflexivity.
  rewrite forallb_forall in B. specialize (B _ I). apply N.leb_le in B. cbn [fst] in B. apply N.lt_nge in H. contradiction.
Qed.
Print Assumptions C35_names.
Example C35_names_case : codeString 8 = "ResourceExhausted" /\ codeString 99 = "Code(99)".
Proof. split; reflexivity. Qed.
