(** Proofs about the text form of provider errors. *)
Require Import Coq.NArith.NArith Coq.ZArith.ZArith Coq.Arith.Arith Coq.Lists.List Coq.Strings.String Coq.Strings.Ascii Coq.Bool.Bool Coq.micromega.Lia.
From Verif Require Import CodesModel CodesSpec.
Import ListNotations.
Open Scope list_scope.
Open Scope string_scope.

Lemma append_nil_r : forall s, s ++ "" = s.
Proof. induction s; cbn; congruence. Qed.

Lemma append_assoc : forall a b c : string, (a ++ b) ++ c = a ++ (b ++ c).
Proof. induction a; cbn; intros; congruence. Qed.

Lemma occurs_app : forall a s t, occurs a (s ++ t) = occurs a s + occurs a t.
Proof. induction s; cbn; intros; [auto | rewrite IHs; lia]. Qed.

Lemma eqb_char : forall a b, Ascii.eqb a b = true <-> a = b.
Proof. intros; apply Ascii.eqb_eq. Qed.

(** scanning bracket-free text outside a group *)
Lemma scan_out : forall s d t r, occurs "[" s = 0 -> scan d t 0 (s ++ r) = scan d t 0 r.
Proof.
  induction s as [|a s IH]; cbn [append scan occurs]; intros d t r H; auto.
  rewrite (Ascii.eqb_sym a lbr). unfold lbr.
  destruct (Ascii.eqb "[" a) eqn:E; [discriminate | cbn in H].
  destruct (Ascii.eqb a rbr); apply IH; auto.
Qed.

(** text whose every prefix keeps the group open is collected *)
Lemma scan_in : forall s d t k r,
  (forall p q, s = p ++ q -> occurs "]" p <= k + occurs "[" p) ->
  scan d t (S k) (s ++ r) = scan d (t ++ s) (S (k + occurs "[" s - occurs "]" s)) r.
Proof.
  induction s as [|a s IH]; intros d t k r H.
  - cbn. rewrite append_nil_r. do 2 f_equal. lia.
  - cbn [append scan].
    assert (P : forall p q, s = p ++ q -> occurs "]" (String a p) <= k + occurs "[" (String a p))
      by (intros p q E; apply (H (String a p) q); cbn; congruence).
    destruct (Ascii.eqb a lbr) eqn:EL.
    + apply eqb_char in EL. subst a.
      rewrite IH.
      * rewrite append_assoc.
        change (occurs "[" (String lbr s)) with (S (occurs "[" s)). change (occurs "]" (String lbr s)) with (occurs "]" s).
        change (String lbr "" ++ s) with (String lbr s). f_equal. lia.
      * intros p q E. specialize (P p q E).
        change (occurs "[" (String lbr p)) with (S (occurs "[" p)) in P. change (occurs "]" (String lbr p)) with (occurs "]" p) in P. lia.
    + destruct (Ascii.eqb a rbr) eqn:ER.
      * apply eqb_char in ER. subst a.
        pose proof (P "" s eq_refl) as P0. cbn in P0.
        destruct k as [|k]; [lia|].
        rewrite IH.
        -- rewrite append_assoc.
           change (occurs "[" (String rbr s)) with (occurs "[" s). change (occurs "]" (String rbr s)) with (S (occurs "]" s)).
           change (String rbr "" ++ s) with (String rbr s). f_equal.
        -- intros p q E. specialize (P p q E).
           change (occurs "[" (String rbr p)) with (occurs "[" p) in P. change (occurs "]" (String rbr p)) with (S (occurs "]" p)) in P. lia.
      * assert (Ascii.eqb "[" a = false) by (rewrite Ascii.eqb_sym; exact EL).
        assert (Ascii.eqb "]" a = false) by (rewrite Ascii.eqb_sym; exact ER).
        rewrite IH.
        -- rewrite append_assoc. cbn [append occurs]. rewrite H0, H1. reflexivity.
        -- intros p q E. specialize (P p q E). cbn [occurs] in P. rewrite H0, H1 in P. cbn in P. lia.
Qed.

Lemma scan_group : forall m d r, balanced m ->
  scan d "" 0 ("[" ++ m ++ "]" ++ r) = scan (d ++ [m])%list "" 0 r.
Proof.
  intros m d r [P E]. cbn [append scan]. change (Ascii.eqb "[" lbr) with true. cbn iota.
  rewrite (scan_in m d "" 0 (String "]" r) P).
  replace (0 + occurs "[" m - occurs "]" m) with 0 by lia. reflexivity.
Qed.

Lemma code_text : forall c, named_code c -> bracket_free (codeString c) /\ StringToCode (codeString c) = c.
Proof.
  unfold named_code. intros c H.
  assert (In c (map fst codeNames)) as HI.
  { cbn [codeNames map fst].
    assert (C : (c = 0 \/ c = 1 \/ c = 2 \/ c = 3 \/ c = 4 \/ c = 5 \/ c = 6 \/ c = 7 \/ c = 8 \/ c = 9 \/
                 c = 10 \/ c = 11 \/ c = 12 \/ c = 13 \/ c = 14 \/ c = 15 \/ c = 16 \/ c = 17)%N) by lia.
    cbn. intuition. }
  cbn in HI. repeat (destruct HI as [<- | HI]; [split; [split; reflexivity | reflexivity] |]). contradiction.
Qed.

Lemma free_balanced : forall s, bracket_free s -> balanced s.
Proof.
  intros s [A B]. split; [|lia]. intros p q ->. rewrite occurs_app in A. lia.
Qed.

Lemma scan_text : forall c m pre, bracket_free pre -> named_code c -> forall post,
  scan [] "" 0 (pre ++ errorText (mkStatus c m) ++ post) = scan [codeString c] "" 0 ("[" ++ m ++ "]" ++ post).
Proof.
  intros c m pre F N post. unfold errorText. cbn [s_code s_msg].
  rewrite scan_out by apply F. rewrite !append_assoc.
  change ("machine codes error: code = [" ++ codeString c ++ "] message = [" ++ m ++ "]" ++ post)
    with ("machine codes error: code = " ++ ("[" ++ codeString c ++ "]" ++ (" message = [" ++ m ++ "]" ++ post))).
  rewrite scan_out by reflexivity.
  rewrite (scan_group (codeString c) []) by (apply free_balanced, code_text; auto).
  change (" message = [" ++ m ++ "]" ++ post) with (" message = " ++ ("[" ++ m ++ "]" ++ post)).
  rewrite scan_out by reflexivity. reflexivity.
Qed.

Lemma round_trip : forall c m pre post, named_code c -> balanced m -> bracket_free pre -> bracket_free post ->
  FromError (pre ++ errorText (mkStatus c m) ++ post) = (mkStatus c m, true).
Proof.
  intros c m pre post N B F G. unfold FromError, findCodeAndMessage.
  rewrite scan_text by auto. rewrite scan_group by auto.
  rewrite <- (append_nil_r post), scan_out by apply G. cbn [scan app].
  rewrite (proj2 (code_text c N)). reflexivity.
Qed.

(** the first point at which a prefix closes more than it opens *)
Lemma first_close : forall s k,
  (forall p q, s = p ++ q -> occurs "]" p <= k + occurs "[" p) \/
  (exists p q, s = p ++ String "]" q /\ (forall p1 p2, p = p1 ++ p2 -> occurs "]" p1 <= k + occurs "[" p1) /\
     occurs "]" p = k + occurs "[" p).
Proof.
  induction s as [|a s IH]; intros k.
  - left. intros [|? p] [|? q] E; cbn in *; try discriminate; lia.
  - destruct (Ascii.eqb a "]") eqn:ER.
    + apply eqb_char in ER. subst a. destruct k as [|k].
      * right. exists "", s. split; [reflexivity|]. split; [|reflexivity].
        intros [|? ?] ? E; [cbn; lia | discriminate].
      * destruct (IH k) as [L | [p [q [E [P O]]]]].
        -- left. intros [|b p] q E; cbn in E; [cbn; lia|]. injection E as <- E.
           specialize (L p q E). cbn. lia.
        -- right. exists (String "]" p), q. subst s. split; [reflexivity|]. split.
           ++ intros [|b p1] p2 E; cbn in E; [cbn; lia|]. injection E as <- E.
              specialize (P p1 p2 E). cbn. lia.
           ++ cbn. lia.
    + destruct (IH (k + (if Ascii.eqb "[" a then 1 else 0))) as [L | [p [q [E [P O]]]]].
      * left. intros [|b p] q E; cbn in E; [cbn; lia|]. injection E as <- E.
        specialize (L p q E). cbn [occurs]. rewrite (Ascii.eqb_sym "]"), ER. lia.
      * right. exists (String a p), q. subst s. split; [reflexivity|]. split.
        -- intros [|b p1] p2 E; cbn in E; [cbn; lia|]. injection E as <- E.
           specialize (P p1 p2 E). cbn [occurs]. rewrite (Ascii.eqb_sym "]"), ER. lia.
        -- cbn [occurs]. rewrite (Ascii.eqb_sym "]"), ER. lia.
Qed.

Lemma length_app : forall a b, String.length (a ++ b) = String.length a + String.length b.
Proof. induction a; cbn; intros; auto. Qed.

Lemma scan_keeps : forall s d t k, exists l, scan d t k s = (d ++ l)%list.
Proof.
  induction s as [|a s IH]; cbn; intros d t k; [exists []; rewrite app_nil_r; auto|].
  destruct (Ascii.eqb a lbr); [destruct k; apply IH|].
  destruct (Ascii.eqb a rbr).
  - destruct k as [|[|k]]; try apply IH.
    destruct (IH (d ++ [t])%list "" 0) as [l ->]. exists ([t] ++ l)%list. rewrite app_assoc. reflexivity.
  - destruct k; apply IH.
Qed.

Lemma only_balanced : forall c m, named_code c ->
  FromError (errorText (mkStatus c m)) = (mkStatus c m, true) -> balanced m.
Proof.
  intros c m N H. unfold FromError, findCodeAndMessage in H.
  replace (errorText (mkStatus c m)) with ("" ++ errorText (mkStatus c m) ++ "") in H
    by (cbn [append]; apply append_nil_r).
  rewrite scan_text in H; [| split; reflexivity | auto].
  cbn [append] in H. cbn [scan] in H. change (Ascii.eqb "[" lbr) with true in H. cbn iota in H.
  destruct (first_close m 0) as [L | [p [q [E [P O]]]]].
  - rewrite (scan_in m [codeString c] "" 0 (String "]" "") L) in H.
    destruct (0 + occurs "[" m - occurs "]" m) eqn:D.
    + split; [exact L|]. specialize (L m "" (eq_sym (append_nil_r m))). lia.
    + cbn in H. discriminate.
  - subst m. rewrite append_assoc in H.
    rewrite (scan_in p [codeString c] "" 0 _ P) in H. replace (0 + occurs "[" p - occurs "]" p) with 0 in H by lia.
    cbn [append scan] in H. change (Ascii.eqb "]" lbr) with false in H. change (Ascii.eqb "]" rbr) with true in H. cbn iota in H.
    destruct (scan_keeps (q ++ "]") ([codeString c] ++ [p])%list "" 0) as [l Hl]. rewrite Hl in H. cbn in H.
    destruct l; [|discriminate]. injection H as _ H.
    apply (f_equal String.length) in H. rewrite length_app in H. cbn in H. lia.
Qed.

Lemma decoded_code : forall text s, FromError text = (s, true) ->
  exists a b m d e, text = a ++ "[" ++ b ++ "]" ++ d ++ "[" ++ m ++ "]" ++ e /\ s_code s = StringToCode b /\ s_msg s = m.
Proof.
  assert (G : forall s d t k l, scan d t k s = (d ++ l)%list ->
            match k, l with
            | O, [] => True
            | O, g :: l' => exists a e, s = a ++ "[" ++ g ++ "]" ++ e /\ scan (d ++ [g])%list "" 0 e = ((d ++ [g]) ++ l')%list
            | S _, [] => True
            | S _, g :: l' => exists u e, g = t ++ u /\ s = u ++ "]" ++ e /\ scan (d ++ [g])%list "" 0 e = ((d ++ [g]) ++ l')%list
            end).
  { induction s as [|a s IH]; cbn [scan]; intros d t k l H.
    - replace d with (d ++ [])%list in H at 1 by apply app_nil_r. apply app_inv_head in H. subst l. destruct k; auto.
    - destruct (Ascii.eqb a lbr) eqn:EL.
      + apply eqb_char in EL. subst a. destruct k.
        * apply IH in H. destruct l as [|g l]; auto. destruct H as [u [e [-> [-> H]]]].
          exists "", e. split; auto.
        * apply IH in H. destruct l as [|g l]; auto. destruct H as [u [e [-> [-> H]]]].
          exists (String lbr u), e. split; [rewrite append_assoc; reflexivity | split; [reflexivity | exact H]].
      + destruct (Ascii.eqb a rbr) eqn:ER.
        * apply eqb_char in ER. subst a. destruct k as [|[|k]].
          -- apply IH in H. destruct l as [|g l]; auto. destruct H as [u [e [-> H]]]. exists (String rbr u), e. auto.
          -- destruct l as [|g l]; auto.
             destruct (scan_keeps s (d ++ [t])%list "" 0) as [l2 H2]. pose proof H as H3. rewrite H2, <- app_assoc in H3.
             apply app_inv_head in H3. cbn in H3. injection H3 as -> ->.
             exists "", s. rewrite append_nil_r. split; auto.
          -- apply IH in H. destruct l as [|g l]; auto. destruct H as [u [e [-> [-> H]]]].
             exists (String rbr u), e. split; [rewrite append_assoc; reflexivity | split; [reflexivity | exact H]].
        * destruct k.
          -- apply IH in H. destruct l as [|g l]; auto. destruct H as [u [e [-> H]]]. exists (String a u), e. auto.
          -- apply IH in H. destruct l as [|g l]; auto. destruct H as [u [e [-> [-> H]]]].
             exists (String a u), e. split; [rewrite append_assoc; reflexivity | split; [reflexivity | exact H]]. }
  intros text s H. unfold FromError, findCodeAndMessage in H.
  destruct (scan [] "" 0 text) as [|c [|m [|]]] eqn:E; try discriminate. injection H as <-.
  apply (G text [] "" 0 [c; m]) in E. destruct E as [a [e [-> E]]].
  apply (G e [c] "" 0 [m]) in E. destruct E as [d [e2 [-> _]]].
  exists a, c, m, d, e2. cbn [s_code s_msg]. auto.
Qed.
