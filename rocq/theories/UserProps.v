(* C37 (user data) and C38 (bootstrap tokens). *)
Require Import List String Ascii Bool Arith ZArith Lia.
From Verif Require Import MetaModel MetaSpec MetaProofs UserModel UserSpec UserProofs.
Import ListNotations.
Open Scope string_scope.
Open Scope list_scope.
Open Scope nat_scope.

(* Sixteen draws. *)
Definition draws (k : nat) : list (option nat) := repeat (Some k) 16.
Definition envOf (k : nat) (now timeout : Z) : TokEnv := mkTokEnv false (draws k) false now timeout.
Definition noTokens : Store := fun _ => None.

Lemma noTokens_ok : storeOK noTokens.
Proof. intros k s H. discriminate. Qed.

(* C37: the user data handed to the provider are the user data of the class with
   the token and the name in the places of the placeholders, and otherwise the
   same; no placeholder of the spelling in use is left, none of any spelling is
   new, and no other entry of the secret changes.
   Partial: if the user data spell a placeholder both plainly and URL-encoded,
   the encoded ones stay; and names of fewer than five bytes are excluded. *)
Theorem C37_filled_partial : forall e n data st d token st' u, storeOK st -> machineName n ->
  get "userData" data = Some u ->
  prepareSecret e n data st = (Good (d, token), st') ->
  tokenText token /\
  (forall k, k <> "userData" -> get k d = get k data) /\
  exists r pt pn items,
    get "userData" d = Some r /\
    spelling tokenPH tokenPHenc u pt /\ spelling namePH namePHenc u pn /\
    u = render pt pn items /\ r = render token n items /\
    ~ Occurs pt r /\ ~ Occurs pn r /\
    (forall x, isPlaceholder x -> ~ Occurs x u -> ~ Occurs x r).
Proof. exact prepare_doc. Qed.
Print Assumptions C37_filled_partial.

(* C37: if each placeholder is spelled in one way only, none is left.
   Partial: see above. *)
Theorem C37_none_left_partial : forall e n data st d token st' u, storeOK st -> machineName n ->
  get "userData" data = Some u ->
  ~ (Occurs tokenPH u /\ Occurs tokenPHenc u) -> ~ (Occurs namePH u /\ Occurs namePHenc u) ->
  prepareSecret e n data st = (Good (d, token), st') ->
  exists r, get "userData" d = Some r /\ forall x, isPlaceholder x -> ~ Occurs x r.
Proof. exact prepare_none_left. Qed.
Print Assumptions C37_none_left_partial.

(* C37: replacing a text that does not overlap itself, as the four placeholders,
   exchanges its occurrences and nothing else, whatever is put in. *)
Theorem C37_replace_exact : forall old new ps, old <> "" -> borderless old ->
  (forall p, In p ps -> ~ Occurs old p) -> ReplaceAll (sjoin old ps) old new = sjoin new ps.
Proof. exact replace_join. Qed.
Print Assumptions C37_replace_exact.

(* ... and every text is made of such pieces. *)
Theorem C37_pieces : forall old s, old <> "" ->
  exists ps, ps <> [] /\ s = sjoin old ps /\ forall p, In p ps -> ~ Occurs old p.
Proof. exact pieces_exist. Qed.
Print Assumptions C37_pieces.

(* C37: the encoding used for a URL-encoded placeholder and its value is one that a reader of a
   URL query undoes, whatever the text; it writes nothing with a meaning in a URL but "+" and
   "%", and leaves a text without such characters alone. *)
Theorem C37_encoding : forall s, queryValue (QueryEscape s) = Some s /\
  (forall c, hasChar c (QueryEscape s) -> urlPlain c \/ c = "+"%char \/ c = "%"%char) /\
  ((forall c, hasChar c s -> urlPlain c) -> QueryEscape s = s).
Proof. exact escape_value. Qed.
Print Assumptions C37_encoding.

Example C37_encoding_case : QueryEscape "a <b>/~K" = "a+%3Cb%3E%2F~K" /\ queryValue "a+%3Cb%3E%2F~K" = Some "a <b>/~K".
Proof. split; vm_compute; reflexivity. Qed.

(* The placeholders are such texts. *)
Theorem C37_placeholders : forall x, isPlaceholder x -> x <> "" /\ borderless x.
Proof.
  intros x P. assert (Q : placeholder x).
  { unfold placeholder. rewrite ET_text, EN_text. exact P. }
  split; [now apply ph_nonempty|now apply ph_borderless].
Qed.
Print Assumptions C37_placeholders.

(* C37: the pass succeeds if the calls do, and panics exactly for names of fewer
   than five bytes. *)
Theorem C37_succeeds : forall e n data st u, 5 <= String.length n -> get "userData" data = Some u ->
  teGetFails e = false -> teCreateFails e = false -> 16 <= List.length (teDraws e) ->
  (forall d, In d (teDraws e) -> exists k, d = Some k /\ k < 36) ->
  exists d token st', prepareSecret e n data st = (Good (d, token), st').
Proof. exact prepare_succeeds. Qed.
Print Assumptions C37_succeeds.

Theorem C37_panics_exactly : forall e n data st,
  fst (prepareSecret e n data st) = Crash <-> get "userData" data <> None /\ String.length n < 5.
Proof. exact prepare_crash. Qed.
Print Assumptions C37_panics_exactly.

(* A non-trivial case: two token placeholders and an encoded name placeholder. *)
Example C37_case :
  let u := "T=<<BOOTSTRAP_TOKEN>>;N=%3C%3CMACHINE_NAME%3E%3E;T=<<BOOTSTRAP_TOKEN>>" in
  machineName "w-54321" /\
  ~ (Occurs tokenPH u /\ Occurs tokenPHenc u) /\ ~ (Occurs namePH u /\ Occurs namePHenc u) /\
  Occurs tokenPH u /\ Occurs namePHenc u /\
  fst (prepareSecret (envOf 10 100 20) "w-54321" [("userData", u); ("key", "v")] noTokens) =
    Good ([("userData", "T=353433.aaaaaaaaaaaaaaaa;N=w-54321;T=353433.aaaaaaaaaaaaaaaa"); ("key", "v")],
          "353433.aaaaaaaaaaaaaaaa").
Proof.
  cbv zeta. split.
  { split; [cbn; lia|]. intros c H. cbn in H.
    repeat (destruct H as [<-|H];
            [first [left; unfold lowerAlnum; vm_compute; lia | right; left; reflexivity]|]).
    destruct H. }
  rewrite <- !contains_spec. split; [vm_compute; intros [_ H]; discriminate|].
  split; [vm_compute; intros [H _]; discriminate|].
  split; [vm_compute; reflexivity|]. split; vm_compute; reflexivity.
Qed.

(* C37 does not hold in full: user data with both spellings keep the encoded one. *)
Theorem C37_mixed_refuted : ~ (forall e n data st d token st', storeOK st -> machineName n ->
  prepareSecret e n data st = (Good (d, token), st') ->
  forall r x, get "userData" d = Some r -> isPlaceholder x -> ~ Occurs x r).
Proof.
  intros H.
  pose (u := "T=<<BOOTSTRAP_TOKEN>>;U=%3C%3CBOOTSTRAP_TOKEN%3E%3E").
  pose (res := prepareSecret (envOf 10 100 20) "w-54321" [("userData", u)] noTokens).
  assert (N := proj1 C37_case).
  apply (H (envOf 10 100 20) "w-54321" [("userData", u)] noTokens
           [("userData", "T=353433.aaaaaaaaaaaaaaaa;U=%3C%3CBOOTSTRAP_TOKEN%3E%3E")]
           "353433.aaaaaaaaaaaaaaaa" (snd res) noTokens_ok N) with
    (r := "T=353433.aaaaaaaaaaaaaaaa;U=%3C%3CBOOTSTRAP_TOKEN%3E%3E") (x := tokenPHenc).
  - unfold res. reflexivity.
  - reflexivity.
  - right. now left.
  - apply contains_spec. vm_compute. reflexivity.
Qed.
Print Assumptions C37_mixed_refuted.

(* C38: machines that differ in the third- to fifth-last byte of their names get
   different tokens, in every sequence of creations, joinings and clean-ups; and
   every token has the documented form.
   Partial: not for names that agree in those three bytes. *)
Theorem C38_different_partial : forall ops st a b ta tb, storeOK st ->
  In (a, ta) (snd (tokRun st ops)) -> In (b, tb) (snd (tokRun st ops)) ->
  idPart a <> idPart b -> ta <> tb.
Proof. exact tokens_differ. Qed.
Print Assumptions C38_different_partial.

Theorem C38_form : forall ops st n t, storeOK st -> In (n, t) (snd (tokRun st ops)) -> tokenText t.
Proof. intros ops st n t OK I. now destruct (handed_spec ops st n t OK I) as (_ & T & _). Qed.
Print Assumptions C38_form.

(* C38: the name of the secret is the same exactly if those three bytes are. *)
Theorem C38_same_exactly : forall a b, 5 <= String.length a -> 5 <= String.length b ->
  (getTokenIDAndSecretName a = getTokenIDAndSecretName b <-> idPart a = idPart b).
Proof.
  intros a b A B. rewrite !tokenId_spec by assumption. split.
  - intros H. injection H as H _. now apply enc_inj.
  - intros ->. reflexivity.
Qed.
Print Assumptions C38_same_exactly.

(* C38: a machine keeps its token as long as nothing removes the secret, and the
   secret of a token just handed out is in the cluster; a new one expires not
   before the creation timeout. *)
Theorem C38_stable : forall e n data st d token st' ops e2 data2 d2 token2 st3, storeOK st ->
  prepareSecret e n data st = (Good (d, token), st') ->
  (forall o, In o ops -> ~ removes ("bootstrap-token-" ++ EncodeToString (idPart n))%string o) ->
  prepareSecret e2 n data2 (fst (tokRun st' ops)) = (Good (d2, token2), st3) -> token2 = token.
Proof. exact tokens_stable. Qed.
Print Assumptions C38_stable.

Theorem C38_usable : forall e n data st d token st', storeOK st ->
  prepareSecret e n data st = (Good (d, token), st') ->
  exists k s, st' k = Some s /\ token = (tkId s ++ "." ++ tkKey s)%string /\
    k = ("bootstrap-token-" ++ tkId s)%string /\
    (st k = None -> tkExpires s = (teNow e + teTimeout e)%Z) /\
    (forall x, x <> k -> st' x = st x).
Proof.
  intros e n data st d token st' OK P.
  destruct (prepare_good _ _ _ _ _ _ _ P) as (u & s & _ & G & T & _).
  destruct (getToken_spec _ _ _ _ _ OK G) as (_ & _ & _ & _ & S & F & D).
  exists ("bootstrap-token-" ++ tkId s)%string, s. split; [exact S|]. split; [exact T|]. split; [reflexivity|].
  split; [|exact F]. intros N. destruct D as [D|(_ & X & _)]; [congruence|exact X].
Qed.
Print Assumptions C38_usable.

(* C38: the secret half is as random as the draws: different draws, different
   secrets, and every sequence of sixteen draws gives one. *)
Theorem C38_random : forall n ds es s,
  randomString n charset ds = Some s -> randomString n charset es = Some s -> firstn n ds = firstn n es.
Proof. exact random_inj. Qed.
Print Assumptions C38_random.

Theorem C38_random_total : forall n ds, n <= List.length ds ->
  (forall d, In d ds -> exists k, d = Some k /\ k < 36) -> exists s, randomString n charset ds = Some s.
Proof. exact random_total. Qed.
Print Assumptions C38_random_total.

(* A non-trivial case: two machines with different tokens, one of which joins. *)
Example C38_case :
  let data := [("userData", "<<BOOTSTRAP_TOKEN>>")] in
  let ops := [Creates (envOf 10 100 20) "w-54321" data; Creates (envOf 11 101 20) "w-64321" data;
              Joins false "w-54321"; Creates (envOf 12 102 20) "w-64321" data] in
  idPart "w-54321" <> idPart "w-64321" /\
  snd (tokRun noTokens ops) =
    [("w-54321", "353433.aaaaaaaaaaaaaaaa"); ("w-64321", "363433.bbbbbbbbbbbbbbbb");
     ("w-64321", "363433.bbbbbbbbbbbbbbbb")].
Proof. split; [vm_compute; discriminate|vm_compute; reflexivity]. Qed.

(* C38 does not hold: the last two bytes of the name are not used, so two machines
   being created at the same time can get the same token. *)
Theorem C38_shared_refuted : ~ (forall ops a b ta tb,
  In (a, ta) (snd (tokRun noTokens ops)) -> In (b, tb) (snd (tokRun noTokens ops)) ->
  a <> b -> ta <> tb).
Proof.
  intros H.
  pose (data := [("userData", "<<BOOTSTRAP_TOKEN>>")]).
  apply (H [Creates (envOf 10 100 20) "w-54321" data; Creates (envOf 11 101 20) "w-54399" data]
           "w-54321" "w-54399" "353433.aaaaaaaaaaaaaaaa" "353433.aaaaaaaaaaaaaaaa");
    [vm_compute; now left|vm_compute; right; now left|vm_compute; discriminate|reflexivity].
Qed.
Print Assumptions C38_shared_refuted.

(* ... the first to join takes the token away from the other, *)
Theorem C38_taken_away_refuted : ~ (forall a b ea eb data da db ta tb st1 st2 st3,
  prepareSecret ea a data noTokens = (Good (da, ta), st1) ->
  prepareSecret eb b data st1 = (Good (db, tb), st2) ->
  deleteBootstrapToken false a st2 = Some st3 -> a <> b ->
  exists k s, st3 k = Some s /\ tb = (tkId s ++ "." ++ tkKey s)%string).
Proof.
  intros H.
  pose (data := [("userData", "<<BOOTSTRAP_TOKEN>>")]).
  pose (r1 := prepareSecret (envOf 10 100 20) "w-54321" data noTokens).
  pose (r2 := prepareSecret (envOf 11 101 20) "w-54399" data (snd r1)).
  pose (st3 := putTok "bootstrap-token-353433" None (snd r2)).
  destruct (H "w-54321" "w-54399" (envOf 10 100 20) (envOf 11 101 20) data
     [("userData", "353433.aaaaaaaaaaaaaaaa")] [("userData", "353433.aaaaaaaaaaaaaaaa")]
     "353433.aaaaaaaaaaaaaaaa" "353433.aaaaaaaaaaaaaaaa" (snd r1) (snd r2) st3) as (k & s & E & _).
  - reflexivity.
  - reflexivity.
  - reflexivity.
  - vm_compute. discriminate.
  - unfold st3, putTok in E. destruct (String.eqb k "bootstrap-token-353433") eqn:K; [discriminate|].
    assert (F : snd r2 k = None).
    { change (snd r2) with (putTok "bootstrap-token-353433"
        (Some (mkTok "353433" "aaaaaaaaaaaaaaaa" 120)) noTokens). unfold putTok. now rewrite K. }
    congruence.
Qed.
Print Assumptions C38_taken_away_refuted.

(* ... and the other may be handed one that expires before its creation timeout. *)
Theorem C38_expiry_refuted : ~ (forall e n data st d token st', storeOK st ->
  prepareSecret e n data st = (Good (d, token), st') ->
  exists k s, st' k = Some s /\ token = (tkId s ++ "." ++ tkKey s)%string /\
    (teNow e + teTimeout e <= tkExpires s)%Z).
Proof.
  intros H.
  pose (data := [("userData", "<<BOOTSTRAP_TOKEN>>")]).
  pose (r1 := prepareSecret (envOf 10 100 20) "w-54321" data noTokens).
  pose (r2 := prepareSecret (envOf 11 119 20) "w-54399" data (snd r1)).
  destruct (H (envOf 11 119 20) "w-54399" data (snd r1)
     [("userData", "353433.aaaaaaaaaaaaaaaa")] "353433.aaaaaaaaaaaaaaaa" (snd r2)) as (k & s & E & _ & L).
  - exact (proj1 (prepare_store (envOf 10 100 20) "w-54321" data noTokens noTokens_ok)).
  - reflexivity.
  - assert (F : snd r2 k = if String.eqb k "bootstrap-token-353433"
        then Some (mkTok "353433" "aaaaaaaaaaaaaaaa" 120) else None) by reflexivity.
    rewrite E in F. destruct (String.eqb k "bootstrap-token-353433"); [|discriminate].
    injection F as ->. cbn in L. lia.
Qed.
Print Assumptions C38_expiry_refuted.
