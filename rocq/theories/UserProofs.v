(* Proofs about user data and bootstrap tokens. *)
Require Import List String Ascii Bool Arith ZArith Lia.
From Verif Require Import MetaModel MetaSpec MetaProofs UserModel UserSpec.
Import ListNotations.
Open Scope string_scope.
Open Scope list_scope.
Open Scope nat_scope.

(* ---- strings ---- *)

Lemma sapp_assoc : forall a b c : string, ((a ++ b) ++ c = a ++ (b ++ c))%string.
Proof. induction a; intros; cbn; [reflexivity|]. now rewrite IHa. Qed.

Lemma sapp_nil : forall a : string, (a ++ "" = a)%string.
Proof. induction a; cbn; [reflexivity|]. now rewrite IHa. Qed.

Lemma slen_app : forall a b : string, String.length (a ++ b)%string = String.length a + String.length b.
Proof. induction a; intros; cbn; [reflexivity|]. now rewrite IHa. Qed.

Lemma sapp_inj : forall a b c : string, (a ++ b = a ++ c)%string -> b = c.
Proof. induction a; cbn; intros b c H; [exact H|]. injection H as H. now apply IHa. Qed.

Lemma sapp_split : forall x y z w : string, (x ++ y = z ++ w)%string ->
  exists l, (x = (z ++ l)%string /\ w = (l ++ y)%string) \/ (z = (x ++ l)%string /\ y = (l ++ w)%string).
Proof.
  induction x as [|c x IH]; intros y z w H.
  - exists z. right. split; [reflexivity|exact H].
  - destruct z as [|d z].
    + exists (String c x). left. split; [reflexivity|]. cbn in H. now rewrite <- H.
    + cbn in H. injection H as E H. subst d. destruct (IH _ _ _ H) as [l [[A B]|[A B]]].
      * exists l. left. split; [cbn; now rewrite A|exact B].
      * exists l. right. split; [cbn; now rewrite A|exact B].
Qed.

Lemma prefix_spec : forall p s, prefix p s = true <-> exists b, s = (p ++ b)%string.
Proof.
  induction p as [|c p IH]; intros s.
  - split; [intros _; now exists s|]. intros _. now destruct s.
  - destruct s as [|d s]; cbn.
    + split; [discriminate|]. intros [b E]. discriminate.
    + destruct (ascii_dec c d) as [E|E].
      * subst d. rewrite IH. split; intros [b H]; exists b; [now rewrite H|]. now injection H.
      * split; [discriminate|]. intros [b H]. injection H as H _. congruence.
Qed.

Lemma contains_spec : forall s p, Contains s p = true <-> Occurs p s.
Proof.
  induction s as [|c s IH]; intros p.
  - cbn [Contains]. rewrite orb_false_r, prefix_spec. split.
    + intros [b H]. exists "", b. exact H.
    + intros (a & b & H). destruct a; [now exists b|]. discriminate.
  - cbn [Contains]. rewrite orb_true_iff, prefix_spec, IH. split.
    + intros [[b H]|(a & b & H)]; [now exists "", b|]. exists (String c a), b. cbn. now rewrite H.
    + intros (a & b & H). destruct a as [|d a]; [left; now exists b|].
      right. exists a, b. cbn in H. now injection H.
Qed.

Lemma contains_false : forall s p, Contains s p = false <-> ~ Occurs p s.
Proof. intros s p. rewrite <- contains_spec. destruct (Contains s p); split; congruence. Qed.

Lemma occurs_dec : forall p s, {Occurs p s} + {~ Occurs p s}.
Proof.
  intros p s. destruct (Contains s p) eqn:E; [left; now apply contains_spec|right; now apply contains_false].
Qed.

Lemma occurs_in : forall p s a b, Occurs p s -> Occurs p (a ++ s ++ b)%string.
Proof.
  intros p s a b (x & y & E). exists (a ++ x)%string, (y ++ b)%string. subst s. now rewrite !sapp_assoc.
Qed.

Lemma hasChar_app : forall c a b, hasChar c (a ++ b)%string <-> hasChar c a \/ hasChar c b.
Proof. induction a as [|x a IH]; intros b; cbn; [tauto|]. rewrite IH. tauto. Qed.

(* ---- pieces ---- *)

Lemma sjoin_cons : forall sep p q l, sjoin sep (p :: q :: l) = (p ++ sep ++ sjoin sep (q :: l))%string.
Proof. reflexivity. Qed.

(* No non-empty end of [a] is a beginning of [b]. *)
Definition noOverlap (a b : string) : Prop :=
  forall x q y, a = (x ++ q)%string -> b = (q ++ y)%string -> q = "".

(* [x] and [y] cannot overlap in any text. *)
Definition apart (x y : string) : Prop :=
  noOverlap x y /\ noOverlap y x /\ ~ Occurs x y /\ ~ Occurs y x.

Lemma join_free : forall x sep ps, apart x sep -> x <> "" ->
  (forall p, In p ps -> ~ Occurs x p) -> ~ Occurs x (sjoin sep ps).
Proof.
  intros x sep ps (O1 & O2 & N1 & N2) NE. induction ps as [|p ps IH]; intros F.
  - intros (a & b & E). destruct a; [|discriminate]. destruct x; [congruence|discriminate].
  - destruct ps as [|q ps]; [cbn; apply F; now left|].
    rewrite sjoin_cons. set (R := sjoin sep (q :: ps)) in *.
    assert (IHR : ~ Occurs x R) by (apply IH; intros; apply F; now right).
    assert (Fp : ~ Occurs x p) by (apply F; now left).
    intros (a & b & E). symmetry in E.
    destruct (sapp_split _ _ _ _ E) as [l [[A B]|[A B]]].
    + (* a = p ++ l ; sep ++ R = l ++ x ++ b *)
      destruct (sapp_split _ _ _ _ B) as [m [[C D]|[C D]]].
      * (* sep = l ++ m ; x ++ b = m ++ R *)
        destruct (sapp_split _ _ _ _ D) as [n [[G H]|[G H]]].
        -- (* x = m ++ n : m ends sep, begins x *)
           assert (m = "") by (apply (O2 l m n); assumption). subst m. cbn in G, D.
           apply IHR. exists "", b. cbn. symmetry. exact D.
        -- (* m = x ++ n : x in sep *)
           apply N1. exists l, n. now rewrite C, G.
      * (* l = sep ++ m ; R = m ++ x ++ b *)
        apply IHR. exists m, b. exact D.
    + (* p = a ++ l ; x ++ b = l ++ sep ++ R *)
      destruct (sapp_split _ _ _ _ B) as [m [[C D]|[C D]]].
      * (* x = l ++ m ; sep ++ R = m ++ b *)
        destruct (sapp_split _ _ _ _ D) as [n [[G H]|[G H]]].
        -- (* sep = m ++ n *)
           assert (m = "") by (apply (O1 l m n); assumption). subst m.
           apply Fp. exists a, "". rewrite C, !sapp_nil. exact A.
        -- (* m = sep ++ n : sep in x *)
           apply N2. exists l, n. now rewrite C, G.
      * (* l = x ++ m *)
        apply Fp. exists a, m. now rewrite A, C.
Qed.

(* ---- the scan ---- *)

Lemma scan_skip : forall old new a b, scan old new (String.length a) (a ++ b)%string = scan old new 0 b.
Proof. induction a as [|c a IH]; intros b; [reflexivity|]. cbn. apply IH. Qed.

Lemma scan_hit : forall old new b, old <> "" ->
  scan old new 0 (old ++ b)%string = (new ++ scan old new 0 b)%string.
Proof.
  intros old new b NE. destruct old as [|c o]; [congruence|].
  change ((String c o ++ b)%string) with (String c (o ++ b)%string).
  cbn [scan]. destruct (prefix (String c o) (String c (o ++ b))) eqn:P.
  - replace (String.length (String c o) - 1) with (String.length o) by (cbn; lia).
    now rewrite scan_skip.
  - assert (prefix (String c o) (String c (o ++ b)) = true) by (apply prefix_spec; now exists b). congruence.
Qed.

Lemma scan_miss : forall old new a b,
  (forall x c y, a = (x ++ String c y)%string -> prefix old (String c y ++ b)%string = false) ->
  scan old new 0 (a ++ b)%string = (a ++ scan old new 0 b)%string.
Proof.
  induction a as [|c a IH]; intros b H; [reflexivity|].
  change ((String c a ++ b)%string) with (String c (a ++ b)%string).
  assert (P := H "" c a eq_refl). cbn [String.append] in P.
  cbn [scan]. rewrite P. cbn. f_equal. apply IH.
  intros x d y E. apply (H (String c x) d y). cbn. now rewrite E.
Qed.

Lemma scan_free : forall old new s, old <> "" -> ~ Occurs old s -> scan old new 0 s = s.
Proof.
  intros old new s NE F. rewrite <- (sapp_nil s) at 1. rewrite scan_miss.
  - cbn. apply sapp_nil.
  - intros x c y E. destruct (prefix old (String c y ++ "")%string) eqn:P; [|reflexivity].
    apply prefix_spec in P. destruct P as [z P]. rewrite sapp_nil in P.
    exfalso. apply F. exists x, z. now rewrite E, P.
Qed.

(* A free piece followed by the pattern is passed over up to the pattern. *)
Lemma scan_piece : forall old new p b, old <> "" -> borderless old -> ~ Occurs old p ->
  scan old new 0 (p ++ old ++ b)%string = (p ++ scan old new 0 (old ++ b)%string)%string.
Proof.
  intros old new p b NE BL F. apply scan_miss. intros x c y E.
  destruct (prefix old (String c y ++ old ++ b)%string) eqn:P; [|reflexivity].
  apply prefix_spec in P. destruct P as [z P]. exfalso.
  destruct (sapp_split _ _ _ _ P) as [l [[A B]|[A B]]].
  - (* String c y = old ++ l *) apply F. exists x, l. now rewrite E, A.
  - (* old = String c y ++ l ; old ++ b = l ++ z *)
    destruct (sapp_split _ _ _ _ B) as [m [[C D]|[C D]]].
    + (* old = l ++ m *) destruct (BL _ _ _ A C) as [K|K]; [discriminate|].
      subst l. cbn in C. rewrite sapp_nil in A. apply F. exists x, "". now rewrite E, A, sapp_nil.
    + (* l = old ++ m *) apply (f_equal String.length) in A, C. rewrite slen_app in A, C. cbn in A. lia.
Qed.

(* Replacing is exact: it exchanges the separators and nothing else. *)
Lemma replace_join : forall old new ps, old <> "" -> borderless old ->
  (forall p, In p ps -> ~ Occurs old p) -> ReplaceAll (sjoin old ps) old new = sjoin new ps.
Proof.
  intros old new ps NE BL. unfold ReplaceAll. induction ps as [|p ps IH]; intros F; [reflexivity|].
  destruct ps as [|q ps].
  - cbn [sjoin]. apply scan_free; [exact NE|]. apply F. now left.
  - rewrite !sjoin_cons, scan_piece, scan_hit, IH; [reflexivity| |assumption|assumption|assumption|].
    + intros r I. apply F. now right.
    + apply F. now left.
Qed.

(* Every text splits into pieces free of the pattern. *)
Lemma pieces_exist : forall old s, old <> "" ->
  exists ps, ps <> [] /\ s = sjoin old ps /\ forall p, In p ps -> ~ Occurs old p.
Proof.
  intros old s NE. remember (String.length s) as n eqn:L.
  revert s L. induction n as [n IH] using lt_wf_ind. intros s L.
  destruct (occurs_dec old s) as [O|O].
  - (* leftmost occurrence *)
    assert (K : forall a b t, t = (a ++ old ++ b)%string ->
       exists a' b', t = (a' ++ old ++ b')%string /\ ~ Occurs old a').
    { induction a as [a IHa] using (well_founded_induction
        (well_founded_ltof _ String.length)). intros b t E.
      destruct (occurs_dec old a) as [(u & v & Ea)|Fa].
      - apply (IHa u) with (b := (v ++ old ++ b)%string).
        + unfold ltof. rewrite Ea, !slen_app. destruct old; [congruence|cbn; lia].
        + rewrite E, Ea, !sapp_assoc. reflexivity.
      - now exists a, b. }
    destruct O as (a & b & E). destruct (K a b s E) as (a' & b' & E' & Fa).
    destruct (IH (String.length b')) with (s := b') as (ps & Nps & Jps & Fps).
    + subst n. rewrite E', !slen_app. destruct old; [congruence|cbn; lia].
    + reflexivity.
    + exists (a' :: ps). split; [discriminate|]. split.
      * destruct ps as [|q ps]; [congruence|]. rewrite sjoin_cons, <- Jps. exact E'.
      * intros p [<-|I]; [exact Fa|]. now apply Fps.
  - exists [s]. split; [discriminate|]. split; [reflexivity|]. intros p [<-|[]]. exact O.
Qed.

(* The scan does not notice text that is apart from the pattern. *)
Lemma scan_app : forall x new t b, x <> "" -> apart x t ->
  forall n a, String.length a <= n ->
  scan x new 0 (a ++ t ++ b)%string = (scan x new 0 a ++ t ++ scan x new 0 b)%string.
Proof.
  intros x new t b NE (O1 & O2 & N1 & N2).
  assert (T : scan x new 0 (t ++ b)%string = (t ++ scan x new 0 b)%string).
  { apply scan_miss. intros u c y E. destruct (prefix x (String c y ++ b)%string) eqn:P; [|reflexivity].
    apply prefix_spec in P. destruct P as [z P]. exfalso.
    destruct (sapp_split _ _ _ _ P) as [l [[A B]|[A B]]].
    - apply N1. exists u, l. now rewrite E, A.
    - assert (K := O2 u (String c y) l E A). discriminate. }
  induction n as [|n IH]; intros a L.
  - destruct a; [|cbn in L; lia]. cbn [String.append]. rewrite T. reflexivity.
  - destruct a as [|c a]; [cbn [String.append]; rewrite T; reflexivity|].
    destruct (prefix x (String c a)) eqn:P.
    + apply prefix_spec in P. destruct P as [z P]. rewrite P, sapp_assoc, !scan_hit by exact NE.
      rewrite IH; [now rewrite sapp_assoc|].
      apply (f_equal String.length) in P. rewrite slen_app in P. destruct x; [congruence|]. cbn in P, L. lia.
    + assert (Q : prefix x (String c (a ++ t ++ b)%string) = false).
      { destruct (prefix x (String c (a ++ t ++ b)%string)) eqn:Q; [|reflexivity].
        apply prefix_spec in Q. destruct Q as [z Q].
        change (String c (a ++ t ++ b)%string) with ((String c a ++ t ++ b)%string) in Q.
        destruct (sapp_split _ _ _ _ Q) as [l [[A B]|[A B]]].
        - assert (prefix x (String c a) = true) by (apply prefix_spec; now exists l). congruence.
        - (* x = String c a ++ l ; t ++ b = l ++ z *)
          exfalso. destruct (sapp_split _ _ _ _ B) as [m [[C D]|[C D]]].
          + assert (l = "") by (apply (O1 (String c a) l m); assumption). subst l.
            rewrite sapp_nil in A. assert (prefix x (String c a) = true).
            { apply prefix_spec. exists "". now rewrite sapp_nil. } congruence.
          + apply N2. exists (String c a), m. now rewrite A, C. }
      change ((String c a ++ t ++ b)%string) with (String c (a ++ t ++ b)%string).
      cbn [scan]. rewrite Q, P. cbn. f_equal. apply IH. cbn in L. lia.
Qed.

Lemma replace_sjoin : forall x new t ps, x <> "" -> apart x t ->
  ReplaceAll (sjoin t ps) x new = sjoin t (map (fun p => ReplaceAll p x new) ps).
Proof.
  intros x new t ps NE AP. unfold ReplaceAll. induction ps as [|p ps IH]; [reflexivity|].
  destruct ps as [|q ps]; [reflexivity|].
  cbn [map] in *. rewrite !sjoin_cons, (scan_app x new t _ NE AP (String.length p) p (le_n _)).
  now rewrite IH.
Qed.

(* ---- decisions on fixed strings ---- *)

Fixpoint sfx (s : string) : list string :=
  match s with EmptyString => [] | String _ s' => s :: sfx s' end.

Lemma sfx_in : forall x c q, In (String c q) (sfx (x ++ String c q)%string).
Proof. induction x as [|d x IH]; intros c q; cbn; [now left|]. right. apply IH. Qed.

Definition overlapFree (a b : string) : bool := forallb (fun q => negb (prefix q b)) (sfx a).

Lemma overlapFree_ok : forall a b, overlapFree a b = true -> noOverlap a b.
Proof.
  intros a b H x q y A B. destruct q as [|c q]; [reflexivity|]. exfalso.
  unfold overlapFree in H. rewrite forallb_forall in H.
  assert (I := sfx_in x c q). rewrite <- A in I. apply H in I.
  assert (P : prefix (String c q) b = true) by (apply prefix_spec; now exists y). now rewrite P in I.
Qed.

Definition apartB (a b : string) : bool :=
  overlapFree a b && overlapFree b a && negb (Contains b a) && negb (Contains a b).

Lemma apartB_ok : forall a b, apartB a b = true -> apart a b.
Proof.
  intros a b H. unfold apartB in H. rewrite !andb_true_iff, !negb_true_iff in H.
  destruct H as [[[A B] C] D].
  split; [now apply overlapFree_ok|]. split; [now apply overlapFree_ok|].
  split; now apply contains_false.
Qed.

Definition borderlessB (s : string) : bool :=
  forallb (fun q => negb (prefix q s)) (match s with EmptyString => [] | String _ s' => sfx s' end).

Lemma borderlessB_ok : forall s, borderlessB s = true -> borderless s.
Proof.
  intros s H x q y A B. destruct x as [|d x]; [now left|]. destruct q as [|c q]; [now right|]. exfalso.
  rewrite A in H at 1. unfold borderlessB in H. cbn [String.append] in H. rewrite forallb_forall in H.
  assert (I := sfx_in x c q). apply H in I.
  assert (P : prefix (String c q) (String d (x ++ String c q)) = true)
    by (apply prefix_spec; exists y; cbn in A; now rewrite <- A).
  now rewrite P in I.
Qed.

(* Apartness by characters: the ends of [x] do not occur in [t], which does not
   occur in [x]. *)
Lemma apart_chars : forall x t f m l, x = String f (m ++ String l "")%string ->
  ~ hasChar f t -> ~ hasChar l t -> ~ Occurs t x -> apart x t.
Proof.
  intros x t f m l E Ff Fl N. split; [|split; [|split; [|exact N]]].
  - intros u q y A B. destruct q as [|c q]; [reflexivity|]. exfalso. apply Fl.
    rewrite B, hasChar_app. left.
    assert (K : forall u q, (u ++ String c q)%string = (String f m ++ String l "")%string -> hasChar l (String c q)).
    { clear. intros u q H. destruct (sapp_split _ _ _ _ H) as [w [[A B]|[A B]]].
      - destruct w as [|d w].
        + cbn in B. injection B as B1 B2. subst. now left.
        + cbn in B. injection B as _ B. destruct w; discriminate.
      - rewrite B, hasChar_app. right. now left. }
    apply (K u q). rewrite <- A. exact E.
  - intros u q y A B. destruct q as [|c q]; [reflexivity|]. exfalso. apply Ff.
    rewrite A, hasChar_app. right. left. rewrite E in B. now injection B.
  - intros (a & b & O). apply Ff. rewrite O, !hasChar_app. right. left. rewrite E. now left.
Qed.

(* ---- placeholders ---- *)

Notation PT := BootstrapTokenPlaceholder (only parsing).
Notation ET := urlEncodedBootstrapTokenPlaceholder (only parsing).
Notation PN := MachineNamePlaceholder (only parsing).
Notation EN := urlEncodedMachineNamePlaceholder (only parsing).
Definition placeholder (x : string) : Prop := x = PT \/ x = ET \/ x = PN \/ x = EN.

Lemma ET_text : ET = "%3C%3CBOOTSTRAP_TOKEN%3E%3E". Proof. vm_compute. reflexivity. Qed.
Lemma EN_text : EN = "%3C%3CMACHINE_NAME%3E%3E". Proof. vm_compute. reflexivity. Qed.

Lemma ph_nonempty : forall x, placeholder x -> x <> "".
Proof. intros x [->|[->|[->| ->]]]; vm_compute; discriminate. Qed.

Lemma ph_borderless : forall x, placeholder x -> borderless x.
Proof. intros x [->|[->|[->| ->]]]; apply borderlessB_ok; vm_compute; reflexivity. Qed.

Lemma ph_apart : forall x y, (x = PT \/ x = ET) -> (y = PN \/ y = EN) -> apart y x.
Proof. intros x y [->| ->] [->| ->]; apply apartB_ok; vm_compute; reflexivity. Qed.

(* Values whose characters cannot be confused with a placeholder. *)
Definition value (t : string) : Prop :=
  2 <= String.length t /\ forall c, hasChar c t -> nameChar c.

Definition nameCharB (c : ascii) : bool :=
  let n := nat_of_ascii c in
  ((48 <=? n) && (n <=? 57)) || ((97 <=? n) && (n <=? 122)) || (n =? 45) || (n =? 46).

Lemma nameCharB_ok : forall c, nameChar c -> nameCharB c = true.
Proof.
  intros c [[[A B]|[A B]]|[->| ->]]; unfold nameCharB.
  - apply Nat.leb_le in A, B. now rewrite A, B.
  - apply Nat.leb_le in A, B. now rewrite A, B, !orb_true_r.
  - reflexivity.
  - reflexivity.
Qed.

Lemma nameChar_not : forall c, nameCharB c = false -> ~ nameChar c.
Proof. intros c H K. apply nameCharB_ok in K. congruence. Qed.

(* Two neighbouring name characters somewhere. *)
Fixpoint pair (s : string) : bool :=
  match s with
  | String c ((String d _) as s') => (nameCharB c && nameCharB d) || pair s'
  | _ => false
  end.

Lemma pair_app : forall a c d b, nameCharB c = true -> nameCharB d = true ->
  pair (a ++ String c (String d b))%string = true.
Proof.
  induction a as [|x a IH]; intros c d b C D.
  - cbn. now rewrite C, D.
  - cbn [String.append]. destruct a as [|y a].
    + cbn [String.append]. cbn [pair]. rewrite C, D. now rewrite !orb_true_r.
    + cbn [String.append] in *. cbn [pair]. cbn [pair] in IH. rewrite IH by assumption. now rewrite orb_true_r.
Qed.

Lemma value_not_inside : forall t x, value t -> pair x = false -> ~ Occurs t x.
Proof.
  intros t x [L C] P (a & b & E). destruct t as [|c [|d t]]; cbn in L; try lia.
  assert (pair x = true).
  { rewrite E. cbn [String.append]. apply pair_app; apply nameCharB_ok, C; cbn; tauto. }
  congruence.
Qed.

Lemma value_apart : forall x t, placeholder x -> value t -> apart x t.
Proof.
  intros x t P V. assert (NP : pair x = false).
  { destruct P as [->|[->|[->| ->]]]; vm_compute; reflexivity. }
  assert (N := value_not_inside t x V NP). destruct V as [_ V].
  destruct P as [->|[->|[->| ->]]].
  - apply apart_chars with (f := "<"%char) (m := "<BOOTSTRAP_TOKEN>") (l := ">"%char);
      [reflexivity|intros H; now apply (nameChar_not _ (eq_refl : nameCharB "<" = false)), V
      |intros H; now apply (nameChar_not _ (eq_refl : nameCharB ">" = false)), V|exact N].
  - apply apart_chars with (f := "%"%char) (m := "3C%3CBOOTSTRAP_TOKEN%3E%3") (l := "E"%char);
      [vm_compute; reflexivity|intros H; now apply (nameChar_not _ (eq_refl : nameCharB "%" = false)), V
      |intros H; now apply (nameChar_not _ (eq_refl : nameCharB "E" = false)), V|exact N].
  - apply apart_chars with (f := "<"%char) (m := "<MACHINE_NAME>") (l := ">"%char);
      [reflexivity|intros H; now apply (nameChar_not _ (eq_refl : nameCharB "<" = false)), V
      |intros H; now apply (nameChar_not _ (eq_refl : nameCharB ">" = false)), V|exact N].
  - apply apart_chars with (f := "%"%char) (m := "3C%3CMACHINE_NAME%3E%3") (l := "E"%char);
      [vm_compute; reflexivity|intros H; now apply (nameChar_not _ (eq_refl : nameCharB "%" = false)), V
      |intros H; now apply (nameChar_not _ (eq_refl : nameCharB "E" = false)), V|exact N].
Qed.

Lemma escape_same : forall t, (forall c, hasChar c t -> nameChar c) -> QueryEscape t = t.
Proof.
  induction t as [|c t IH]; intros H; [reflexivity|]. cbn.
  assert (U : unreserved c = true).
  { destruct (H c (or_introl eq_refl)) as [[[A B]|[A B]]|[->| ->]]; unfold unreserved.
    - apply Nat.leb_le in A, B. now rewrite A, B.
    - apply Nat.leb_le in A, B. rewrite A, B. now rewrite !orb_true_r.
    - reflexivity.
    - reflexivity. }
  rewrite U, IH; [reflexivity|]. intros d K. apply H. now right.
Qed.

Definition urlPlainB (c : ascii) : bool :=
  let n := nat_of_ascii c in
  ((48 <=? n) && (n <=? 57)) || ((65 <=? n) && (n <=? 90)) || ((97 <=? n) && (n <=? 122))
  || Ascii.eqb c "-" || Ascii.eqb c "." || Ascii.eqb c "_" || Ascii.eqb c "~".
Lemma urlPlainB_spec : forall c, urlPlainB c = true <-> urlPlain c.
Proof.
  intros c. unfold urlPlainB, urlPlain. cbv zeta. rewrite !orb_true_iff, !andb_true_iff, !Nat.leb_le, !Ascii.eqb_eq. tauto.
Qed.

(* All 256 bytes. *)
Definition byteOK (c : ascii) : bool :=
  Bool.eqb (unreserved c) (urlPlainB c) && negb (urlPlainB c && (Ascii.eqb c "%" || Ascii.eqb c "+")) &&
  Bool.eqb (nat_of_ascii c =? 32) (Ascii.eqb c " ") &&
  urlPlainB (upperHex (nat_of_ascii c / 16)) && urlPlainB (upperHex (nat_of_ascii c mod 16)) &&
  match hexVal (upperHex (nat_of_ascii c / 16)), hexVal (upperHex (nat_of_ascii c mod 16)) with
  | Some x, Some y => Ascii.eqb (ascii_of_nat (16 * x + y)) c
  | _, _ => false
  end.
Lemma bytes_ok : forall c, byteOK c = true.
Proof. intros [[] [] [] [] [] [] [] []]; vm_compute; reflexivity. Qed.

Lemma escape_value : forall s, queryValue (QueryEscape s) = Some s /\
  (forall c, hasChar c (QueryEscape s) -> urlPlain c \/ c = "+"%char \/ c = "%"%char) /\
  ((forall c, hasChar c s -> urlPlain c) -> QueryEscape s = s).
Proof.
  induction s as [|c s (I1 & I2 & I3)]; [repeat split; cbn; tauto|].
  pose proof (bytes_ok c) as B. unfold byteOK in B. rewrite !andb_true_iff in B.
  destruct B as (((((B1 & B2) & B3) & B4) & B5) & B6). apply Bool.eqb_prop in B1, B3. cbn [QueryEscape].
  destruct (unreserved c) eqn:U.
  - symmetry in B1. rewrite B1 in B2. cbn [andb] in B2. apply negb_true_iff, orb_false_iff in B2. destruct B2 as (B2 & B7).
    apply urlPlainB_spec in B1. split; [cbn [queryValue]; rewrite B2, I1, B7; reflexivity|]. split.
    + intros x [<-|H]; [auto|now apply I2].
    + intros H. rewrite I3; [reflexivity|]. intros x K. apply H. now right.
  - assert (NP : ~ urlPlain c) by (rewrite <- urlPlainB_spec; congruence).
    destruct (nat_of_ascii c =? 32).
    + symmetry in B3. apply Ascii.eqb_eq in B3. subst c. split; [cbn; rewrite I1; reflexivity|]. split.
      * intros x [<-|H]; [auto|now apply I2].
      * intros H. destruct NP. apply H. now left.
    + split.
      * cbn [queryValue]. replace (Ascii.eqb "%" "%") with true by reflexivity.
        destruct (hexVal (upperHex (nat_of_ascii c / 16))); [|discriminate].
        destruct (hexVal (upperHex (nat_of_ascii c mod 16))); [|discriminate]. rewrite I1. apply Ascii.eqb_eq in B6. now rewrite B6.
      * apply urlPlainB_spec in B4, B5. split.
        -- intros x [<-|[<-|[<-|H]]]; auto.
        -- intros H. destruct NP. apply H. now left.
Qed.

Lemma token_value : forall t, tokenText t -> value t.
Proof.
  intros t (id & key & -> & L1 & L2 & C1 & C2). split.
  - rewrite slen_app. lia.
  - intros c H. rewrite hasChar_app in H. cbn in H. destruct H as [H|[H|H]].
    + left. now apply C1.
    + right. right. now symmetry.
    + left. now apply C2.
Qed.

Lemma name_value : forall n, machineName n -> value n.
Proof. intros n [L C]. split; [lia|exact C]. Qed.

(* ---- filling ---- *)

Lemma fill_spec : forall plain encoded v u, value v -> placeholder plain -> placeholder encoded ->
  exists ph, spelling plain encoded u ph /\ fill plain encoded v u = ReplaceAll u ph v.
Proof.
  intros plain encoded v u V P E. unfold fill.
  destruct (Contains u plain) eqn:C.
  - exists plain. split; [left; split; [now apply contains_spec|reflexivity]|reflexivity].
  - exists encoded. split; [right; split; [now apply contains_false|reflexivity]|].
    destruct (Contains u encoded) eqn:D.
    + rewrite escape_same; [reflexivity|]. apply V.
    + symmetry. apply scan_free; [now apply ph_nonempty|now apply contains_false].
Qed.

Lemma fillToken_spec : forall v u, value v ->
  exists ph, spelling PT ET u ph /\ fillToken v u = ReplaceAll u ph v.
Proof. intros v u V. unfold fillToken. apply fill_spec; [exact V|now left|now (right; left)]. Qed.

Lemma fillName_spec : forall v u, value v ->
  exists ph, spelling PN EN u ph /\ fillName v u = ReplaceAll u ph v.
Proof.
  intros v u V. unfold fillName.
  apply fill_spec; [exact V|now (right; right; left)|now (right; right; right)].
Qed.

Lemma spelling_fun : forall p e u a b, spelling p e u a -> spelling p e u b -> a = b.
Proof. intros p e u a b [[A B]|[A B]] [[C D]|[C D]]; subst; tauto || reflexivity. Qed.

Fixpoint nameItems (qs : list string) : list Item :=
  match qs with
  | [] => []
  | [q] => [Txt q]
  | q :: qs' => Txt q :: Nam :: nameItems qs'
  end.

Fixpoint tokItems (qss : list (list string)) : list Item :=
  match qss with
  | [] => []
  | [qs] => nameItems qs
  | qs :: qss' => nameItems qs ++ Tok :: tokItems qss'
  end.

Lemma render_app : forall t n a b, render t n (a ++ b) = (render t n a ++ render t n b)%string.
Proof.
  induction a as [|[s| |] a IH]; intros b; cbn; [reflexivity| | |]; rewrite IH; now rewrite sapp_assoc.
Qed.

Lemma render_nameItems : forall t n qs, render t n (nameItems qs) = sjoin n qs.
Proof.
  induction qs as [|q qs IH]; [reflexivity|]. destruct qs as [|r qs].
  - cbn. apply sapp_nil.
  - rewrite sjoin_cons, <- IH. reflexivity.
Qed.

Lemma render_tokItems : forall t n qss, render t n (tokItems qss) = sjoin t (map (sjoin n) qss).
Proof.
  induction qss as [|qs qss IH]; [reflexivity|]. destruct qss as [|rs qss].
  - cbn [tokItems map sjoin]. apply render_nameItems.
  - cbn [map]. rewrite sjoin_cons.
    change (tokItems (qs :: rs :: qss)) with (nameItems qs ++ Tok :: tokItems (rs :: qss)).
    rewrite render_app, render_nameItems. cbn [render]. now rewrite IH.
Qed.

Lemma sjoin_occurs : forall x sep ps p, In p ps -> Occurs x p -> Occurs x (sjoin sep ps).
Proof.
  intros x sep ps p I O. induction ps as [|q ps IH]; [destruct I|]. destruct ps as [|r ps].
  - destruct I as [->|[]]. exact O.
  - rewrite sjoin_cons. destruct I as [->|I].
    + now apply (occurs_in x p "" (sep ++ sjoin sep (r :: ps))%string).
    + specialize (IH I). apply (occurs_in x _ (q ++ sep)%string "") in IH.
      now rewrite sapp_nil, sapp_assoc in IH.
Qed.

(* The pieces of every element of a list. *)
Lemma pieces_all : forall x ps, x <> "" -> exists qss, ps = map (sjoin x) qss /\
  forall qs q, In qs qss -> In q qs -> ~ Occurs x q.
Proof.
  intros x ps NE. induction ps as [|p ps (qss & E & F)].
  - exists []. split; [reflexivity|]. intros qs q [].
  - destruct (pieces_exist x p NE) as (qs & _ & E' & F'). exists (qs :: qss). split.
    + cbn. now rewrite <- E, <- E'.
    + intros qs' q [<-|I] J; [now apply F'|now apply (F qs')].
Qed.

(* An occurrence of a name placeholder is not disturbed by filling in the token. *)
Lemma occurs_through : forall x y v ps, placeholder x -> placeholder y -> apart x y -> value v ->
  (Occurs x (sjoin y ps) <-> Occurs x (sjoin v ps)).
Proof.
  intros x y v ps PX PY AP V.
  assert (D : (exists p, In p ps /\ Occurs x p) \/ (forall p, In p ps -> ~ Occurs x p)).
  { clear. induction ps as [|p ps [(q & I & O)|F]].
    - right. intros p [].
    - left. exists q. split; [now right|exact O].
    - destruct (occurs_dec x p) as [O|O]; [left; exists p; split; [now left|exact O]|].
      right. intros q [<-|I]; [exact O|now apply F]. }
  destruct D as [(p & I & O)|F].
  - split; intros _; now apply sjoin_occurs with p.
  - assert (~ Occurs x (sjoin y ps)) by (apply join_free; [exact AP|now apply ph_nonempty|exact F]).
    assert (~ Occurs x (sjoin v ps)) by (apply join_free; [now apply value_apart|now apply ph_nonempty|exact F]).
    tauto.
Qed.

Lemma user_spec : forall u t n, value t -> value n ->
  exists pt pn items,
    spelling PT ET u pt /\ spelling PN EN u pn /\
    u = render pt pn items /\
    fillName n (fillToken t u) = render t n items /\
    ~ Occurs pt (fillName n (fillToken t u)) /\ ~ Occurs pn (fillName n (fillToken t u)) /\
    (forall x, placeholder x -> ~ Occurs x u -> ~ Occurs x (fillName n (fillToken t u))).
Proof.
  intros u t n VT VN.
  destruct (fillToken_spec t u VT) as (pt & ST & FT).
  destruct (fillName_spec n (fillToken t u) VN) as (pn & SN & FN).
  assert (QT : pt = PT \/ pt = ET) by (destruct ST as [[_ ->]|[_ ->]]; tauto).
  assert (QN : pn = PN \/ pn = EN) by (destruct SN as [[_ ->]|[_ ->]]; tauto).
  assert (PHT : placeholder pt) by (destruct QT as [-> | ->]; [now left|now (right; left)]).
  assert (PHN : placeholder pn) by (destruct QN as [-> | ->]; [now (right; right; left)|now (right; right; right)]).
  destruct (pieces_exist pt u (ph_nonempty _ PHT)) as (ps & _ & U & Fps).
  assert (TT : fillToken t u = sjoin t ps).
  { rewrite FT, U. apply replace_join; [now apply ph_nonempty|now apply ph_borderless|exact Fps]. }
  destruct (pieces_all pn ps (ph_nonempty _ PHN)) as (qss & P & Fq).
  assert (NN : fillName n (fillToken t u) = sjoin t (map (sjoin n) qss)).
  { rewrite FN, TT, P, replace_sjoin;
      [|now apply ph_nonempty|now apply value_apart].
    rewrite map_map. f_equal. apply map_ext_in. intros qs I.
    apply replace_join; [now apply ph_nonempty|now apply ph_borderless|].
    intros q J. now apply (Fq qs). }
  assert (FREE : forall x, placeholder x -> (forall qs q, In qs qss -> In q qs -> ~ Occurs x q) ->
     ~ Occurs x (fillName n (fillToken t u))).
  { intros x PX H. rewrite NN. apply join_free; [now apply value_apart|now apply ph_nonempty|].
    intros p I. apply in_map_iff in I. destruct I as (qs & <- & I).
    apply join_free; [now apply value_apart|now apply ph_nonempty|]. intros q J. now apply (H qs). }
  assert (SUB : forall x qs q, In qs qss -> In q qs -> Occurs x q -> Occurs x (sjoin pn qs)).
  { intros x qs q _ J O. now apply sjoin_occurs with q. }
  exists pt, pn, (tokItems qss).
  split; [exact ST|]. split.
  { assert (TH : Occurs PN u <-> Occurs PN (fillToken t u)).
    { rewrite TT, U. apply occurs_through; [now (right; right; left)|exact PHT|apply ph_apart; [exact QT|now left]|exact VT]. }
    destruct SN as [[A ->]|[A ->]]; [left; split; [now apply TH|reflexivity]|right; split; [rewrite TH; exact A|reflexivity]]. }
  split; [rewrite render_tokItems, <- P; exact U|].
  split; [rewrite render_tokItems; exact NN|].
  split.
  - apply FREE; [exact PHT|]. intros qs q I J O. apply (Fps (sjoin pn qs)).
    + rewrite P. apply in_map_iff. now exists qs.
    + now apply (SUB pt qs q).
  - split; [apply FREE; [exact PHN|exact Fq]|].
    intros x PX NU. apply FREE; [exact PX|]. intros qs q I J O. apply NU. rewrite U.
    apply sjoin_occurs with (sjoin pn qs).
    + rewrite P. apply in_map_iff. now exists qs.
    + now apply (SUB x qs q).
Qed.

(* ---- identifiers ---- *)

Lemma lowerHex_ok : forall n, n < 16 -> lowerAlnum (lowerHex n) /\ nat_of_ascii (lowerHex n) = (if n <? 10 then 48 + n else 87 + n).
Proof.
  intros n L. unfold lowerHex, lowerAlnum.
  rewrite nat_ascii_embedding by (destruct (n <? 10) eqn:E; [apply Nat.ltb_lt in E|apply Nat.ltb_ge in E]; lia).
  split; [|reflexivity]. destruct (n <? 10) eqn:E; [apply Nat.ltb_lt in E|apply Nat.ltb_ge in E]; lia.
Qed.

Lemma lowerHex_inj : forall a b, a < 16 -> b < 16 -> lowerHex a = lowerHex b -> a = b.
Proof.
  intros a b A B H. apply (f_equal nat_of_ascii) in H.
  destruct (lowerHex_ok a A) as [_ HA]. destruct (lowerHex_ok b B) as [_ HB]. rewrite HA, HB in H.
  destruct (a <? 10) eqn:EA; destruct (b <? 10) eqn:EB;
    repeat match goal with
           | E : (_ <? _) = true |- _ => apply Nat.ltb_lt in E
           | E : (_ <? _) = false |- _ => apply Nat.ltb_ge in E
           end; lia.
Qed.

Lemma byte_parts : forall c, nat_of_ascii c / 16 < 16 /\ nat_of_ascii c mod 16 < 16.
Proof.
  intros c. assert (B := nat_ascii_bounded c). split.
  - apply Nat.div_lt_upper_bound; [lia|]. lia.
  - apply Nat.mod_upper_bound. lia.
Qed.

Lemma enc_inj : forall a b, EncodeToString a = EncodeToString b -> a = b.
Proof.
  induction a as [|c a IH]; intros [|d b] H; cbn [EncodeToString] in H; try discriminate; [reflexivity|].
  remember (nat_of_ascii c / 16) as c1. remember (nat_of_ascii c mod 16) as c2.
  remember (nat_of_ascii d / 16) as d1. remember (nat_of_ascii d mod 16) as d2.
  injection H as H1 H2 H3. destruct (byte_parts c) as [C1 C2]. destruct (byte_parts d) as [D1 D2].
  rewrite <- Heqc1 in C1. rewrite <- Heqc2 in C2. rewrite <- Heqd1 in D1. rewrite <- Heqd2 in D2.
  apply lowerHex_inj in H1; [|assumption|assumption]. apply lowerHex_inj in H2; [|assumption|assumption].
  f_equal; [|now apply IH].
  rewrite <- (ascii_nat_embedding c), <- (ascii_nat_embedding d). f_equal.
  rewrite (Nat.div_mod (nat_of_ascii c) 16), (Nat.div_mod (nat_of_ascii d) 16) by lia. congruence.
Qed.

Lemma enc_len : forall s, String.length (EncodeToString s) = 2 * String.length s.
Proof.
  induction s as [|c s IH]; [reflexivity|]. cbn [EncodeToString String.length]. rewrite IH. lia.
Qed.

Lemma enc_chars : forall s c, hasChar c (EncodeToString s) -> lowerAlnum c.
Proof.
  induction s as [|d s IH]; intros c H; cbn [EncodeToString hasChar] in H; [destruct H|].
  destruct (byte_parts d) as [D1 D2].
  destruct H as [H|[H|H]]; [subst c; now apply lowerHex_ok|subst c; now apply lowerHex_ok|now apply IH].
Qed.

Lemma enc_prefix : forall k s, substring 0 (2 * k) (EncodeToString s) = EncodeToString (substring 0 k s).
Proof.
  induction k as [|k IH]; intros s.
  - now destruct s.
  - replace (2 * S k) with (S (S (2 * k))) by lia. destruct s as [|c s]; [reflexivity|].
    cbn [EncodeToString substring]. now rewrite IH.
Qed.

Lemma sub_sub : forall s m k l, k <= l -> substring 0 k (substring m l s) = substring m k s.
Proof.
  induction s as [|c s IH]; intros m k l L.
  - destruct m, l, k; cbn; try reflexivity; lia.
  - destruct m as [|m].
    + destruct l as [|l]; [replace k with 0 by lia; reflexivity|].
      destruct k as [|k]; [reflexivity|]. cbn [substring]. f_equal.
      specialize (IH 0 k l). rewrite IH by lia. reflexivity.
    + cbn [substring]. now apply IH.
Qed.

Lemma sub_len : forall s m k, m + k <= String.length s -> String.length (substring m k s) = k.
Proof.
  induction s as [|c s IH]; intros m k L; cbn [String.length] in L.
  - assert (m = 0) by lia. assert (k = 0) by lia. subst. reflexivity.
  - destruct m as [|m].
    + destruct k as [|k]; [reflexivity|]. cbn [substring String.length]. f_equal. apply (IH 0 k). lia.
    + cbn [substring]. apply IH. lia.
Qed.

Lemma tokenId_spec : forall n, 5 <= String.length n ->
  getTokenIDAndSecretName n =
    Some (EncodeToString (idPart n), ("bootstrap-token-" ++ EncodeToString (idPart n))%string).
Proof.
  intros n L. unfold getTokenIDAndSecretName.
  destruct (String.length n <? 5) eqn:E; [apply Nat.ltb_lt in E; lia|].
  change 6 with (2 * 3). rewrite enc_prefix, sub_sub by lia. reflexivity.
Qed.

Lemma tokenId_none : forall n, getTokenIDAndSecretName n = None <-> String.length n < 5.
Proof.
  intros n. unfold getTokenIDAndSecretName.
  destruct (String.length n <? 5) eqn:E; [apply Nat.ltb_lt in E|apply Nat.ltb_ge in E]; split; intros H;
    try reflexivity; try assumption; [discriminate|lia].
Qed.

Lemma tokenId_len : forall n, 5 <= String.length n -> String.length (EncodeToString (idPart n)) = 6.
Proof. intros n L. rewrite enc_len. unfold idPart. rewrite sub_len by lia. reflexivity. Qed.

(* ---- random keys ---- *)

Lemma get_hasChar : forall s n c, String.get n s = Some c -> hasChar c s.
Proof.
  induction s as [|d s IH]; intros n c H; [destruct n; discriminate|]. destruct n as [|n]; cbn in H.
  - injection H as ->. now left.
  - right. now apply (IH n).
Qed.

Lemma charset_chars : forall c, hasChar c charset -> lowerAlnum c.
Proof.
  intros c H. cbn in H.
  repeat (destruct H as [<-|H]; [unfold lowerAlnum; vm_compute; lia|]). destruct H.
Qed.

Lemma random_ok : forall n ds s, randomString n charset ds = Some s ->
  String.length s = n /\ forall c, hasChar c s -> lowerAlnum c.
Proof.
  induction n as [|n IH]; intros ds s H.
  - cbn in H. injection H as <-. split; [reflexivity|]. intros c [].
  - cbn [randomString] in H. destruct ds as [|[d|] ds]; try discriminate.
    destruct (String.get d charset) as [c|] eqn:G; [|discriminate].
    destruct (randomString n charset ds) as [s'|] eqn:R; [|discriminate].
    injection H as <-. destruct (IH _ _ R) as [L C]. split; [cbn; now rewrite L|].
    intros x [<-|X]; [|now apply C]. apply charset_chars. now apply get_hasChar with d.
Qed.

Lemma charset_inj : forall a b c, String.get a charset = Some c -> String.get b charset = Some c -> a = b.
Proof.
  assert (B : forall s a c, String.get a s = Some c -> a < String.length s).
  { induction s as [|d s IH]; intros a c H; [destruct a; discriminate|]. destruct a as [|a]; cbn in *; [lia|].
    apply IH in H. lia. }
  assert (K : forallb (fun a => forallb (fun b =>
     match String.get a charset, String.get b charset with
     | Some x, Some y => implb (Ascii.eqb x y) (a =? b)
     | _, _ => true
     end) (seq 0 36)) (seq 0 36) = true) by (vm_compute; reflexivity).
  intros a b c HA HB. assert (LA := B _ _ _ HA). assert (LB := B _ _ _ HB).
  change (String.length charset) with 36 in LA, LB.
  assert (IA : In a (seq 0 36)) by (apply in_seq; lia).
  assert (IB : In b (seq 0 36)) by (apply in_seq; lia).
  rewrite forallb_forall in K. specialize (K a IA). cbv beta in K.
  rewrite forallb_forall in K. specialize (K b IB). cbv beta in K.
  rewrite HA, HB, Ascii.eqb_refl in K. cbn [implb] in K. now apply Nat.eqb_eq.
Qed.

Lemma random_inj : forall n ds es s,
  randomString n charset ds = Some s -> randomString n charset es = Some s -> firstn n ds = firstn n es.
Proof.
  induction n as [|n IH]; intros ds es s HD HE; [reflexivity|].
  cbn [randomString] in HD, HE.
  destruct ds as [|[d|] ds]; try discriminate. destruct es as [|[e|] es]; try discriminate.
  destruct (String.get d charset) as [x|] eqn:GD; [|discriminate].
  destruct (randomString n charset ds) as [s1|] eqn:RD; [|discriminate].
  destruct (String.get e charset) as [y|] eqn:GE; [|discriminate].
  destruct (randomString n charset es) as [s2|] eqn:RE; [|discriminate].
  injection HD as <-. injection HE as -> ->. cbn [firstn].
  rewrite (charset_inj _ _ _ GD GE). f_equal. now apply IH with s1.
Qed.

Lemma random_total : forall n ds, n <= List.length ds ->
  (forall d, In d ds -> exists k, d = Some k /\ k < 36) -> exists s, randomString n charset ds = Some s.
Proof.
  induction n as [|n IH]; intros ds L H; [now exists ""|].
  destruct ds as [|d ds]; [cbn in L; lia|].
  destruct (H d (or_introl eq_refl)) as (k & -> & Lk).
  destruct (IH ds) as [s E]; [cbn in L; lia|intros x I; apply H; now right|].
  cbn [randomString]. rewrite E.
  assert (G : exists c, String.get k charset = Some c).
  { assert (B : forall s k, k < String.length s -> exists c, String.get k s = Some c).
    { induction s0 as [|x s0 IHs]; intros j Lj; [cbn in Lj; lia|].
      destruct j as [|j]; [now exists x|]. cbn. apply IHs. cbn in Lj. lia. }
    apply B. exact Lk. }
  destruct G as [c G]. rewrite G. now exists (String c s).
Qed.

(* ---- the store ---- *)

Lemma storeOK_put_none : forall k st, storeOK st -> storeOK (putTok k None st).
Proof.
  intros k st H x s E. unfold putTok in E. destruct (String.eqb x k); [discriminate|]. now apply H.
Qed.

Lemma fresh_ok : forall n key, 5 <= String.length n -> String.length key = 16 ->
  (forall c, hasChar c key -> lowerAlnum c) ->
  tokenText (EncodeToString (idPart n) ++ "." ++ key)%string.
Proof.
  intros n key L K C. exists (EncodeToString (idPart n)), key. split; [reflexivity|].
  split; [now apply tokenId_len|]. split; [exact K|]. split; [apply enc_chars|exact C].
Qed.

Lemma secret_name_inj : forall a b, ("bootstrap-token-" ++ a = "bootstrap-token-" ++ b)%string -> a = b.
Proof. intros a b. apply sapp_inj. Qed.

(* What one creation pass obtains. *)
Lemma getToken_spec : forall e n st s st', storeOK st ->
  getBootstrapTokenOrCreateIfNotExist e n st = (Good s, st') ->
  5 <= String.length n /\ storeOK st' /\ tkId s = EncodeToString (idPart n) /\
  tokenText (tkId s ++ "." ++ tkKey s)%string /\
  st' ("bootstrap-token-" ++ tkId s)%string = Some s /\
  (forall x, x <> ("bootstrap-token-" ++ tkId s)%string -> st' x = st x) /\
  (st ("bootstrap-token-" ++ tkId s)%string = Some s \/
   (st ("bootstrap-token-" ++ tkId s)%string = None /\ tkExpires s = (teNow e + teTimeout e)%Z /\
    randomString 16 charset (teDraws e) = Some (tkKey s))).
Proof.
  intros e n st s st' OK H. unfold getBootstrapTokenOrCreateIfNotExist in H.
  destruct (le_lt_dec 5 (String.length n)) as [L|L].
  2:{ apply tokenId_none in L. rewrite L in H. discriminate. }
  rewrite tokenId_spec in H by exact L. set (id := EncodeToString (idPart n)) in *.
  destruct (teGetFails e); [discriminate|].
  destruct (st ("bootstrap-token-" ++ id)%string) as [s0|] eqn:E.
  - injection H as <- <-. destruct (OK _ _ E) as (K & T & _). apply secret_name_inj in K.
    split; [exact L|]. split; [exact OK|]. split; [now symmetry|]. split; [exact T|].
    rewrite <- K. split; [exact E|]. split; [reflexivity|]. now left.
  - destruct (randomString 16 charset (teDraws e)) as [key|] eqn:R; [|discriminate].
    remember ("bootstrap-token-" ++ id)%string as sn eqn:SN.
    destruct (teCreateFails e); [discriminate|]. injection H as <- <-.
    destruct (random_ok _ _ _ R) as [LK CK].
    assert (T := fresh_ok n key L LK CK). fold id in T. cbn [tkId tkKey tkExpires].
    rewrite <- SN.
    split; [exact L|]. split.
    { intros x s1 E1. unfold putTok in E1.
      destruct (String.eqb_spec x sn) as [EQ|NE].
      - injection E1 as <-. cbn [tkId tkKey]. split; [now rewrite EQ|]. split; [exact T|now apply tokenId_len].
      - now apply OK. }
    split; [reflexivity|]. split; [exact T|]. split.
    { unfold putTok. now rewrite String.eqb_refl. }
    split.
    { intros x NE. unfold putTok. destruct (String.eqb_spec x sn); [contradiction|reflexivity]. }
    right. split; [exact E|]. split; [reflexivity|reflexivity].
Qed.

Lemma getToken_store : forall e n st, storeOK st ->
  storeOK (snd (getBootstrapTokenOrCreateIfNotExist e n st)) /\
  forall x s, st x = Some s -> snd (getBootstrapTokenOrCreateIfNotExist e n st) x = Some s.
Proof.
  intros e n st OK. destruct (getBootstrapTokenOrCreateIfNotExist e n st) as [[s| |] st'] eqn:E; cbn [snd].
  - destruct (getToken_spec _ _ _ _ _ OK E) as (_ & OK' & _ & _ & S & F & D). split; [exact OK'|].
    intros x s0 H. destruct (string_dec x ("bootstrap-token-" ++ tkId s)%string) as [->|NE].
    + destruct D as [D|[D _]]; congruence.
    + rewrite F by exact NE. exact H.
  - unfold getBootstrapTokenOrCreateIfNotExist in E.
    repeat (match type of E with
            | context [match ?x with _ => _ end] => destruct x
            end; try discriminate); injection E as <-; split; auto.
  - unfold getBootstrapTokenOrCreateIfNotExist in E.
    repeat (match type of E with
            | context [match ?x with _ => _ end] => destruct x
            end; try discriminate); injection E as <-; split; auto.
Qed.

Lemma prepare_good : forall e n data st d token st',
  prepareSecret e n data st = (Good (d, token), st') ->
  exists u s, get "userData" data = Some u /\
    getBootstrapTokenOrCreateIfNotExist e n st = (Good s, st') /\
    token = (tkId s ++ "." ++ tkKey s)%string /\
    get "userData" d = Some (fillName n (fillToken token u)) /\
    forall k, k <> "userData" -> get k d = get k data.
Proof.
  intros e n data st d token st' H. unfold prepareSecret, addBootstrapTokenToUserData in H.
  destruct (get "userData" data) as [u|] eqn:U; [|discriminate].
  destruct (getBootstrapTokenOrCreateIfNotExist e n st) as [[s| |] st1] eqn:G; [|discriminate|discriminate].
  unfold addMachineNameToUserData in H. rewrite get_put, String.eqb_refl in H.
  remember (fillName n (fillToken (TokenFromIDAndSecret (tkId s) (tkKey s)) u)) as r eqn:R.
  remember (fillToken (TokenFromIDAndSecret (tkId s) (tkKey s)) u) as r0.
  injection H as <- T <-. exists u, s. split; [reflexivity|]. split; [reflexivity|]. split; [now rewrite <- T|].
  split.
  - rewrite get_put, String.eqb_refl, R, <- T, Heqr0. reflexivity.
  - intros k NE. rewrite !get_put. destruct (String.eqb_spec k "userData"); [contradiction|reflexivity].
Qed.

Lemma prepare_store : forall e n data st, storeOK st ->
  storeOK (snd (prepareSecret e n data st)) /\
  forall x s, st x = Some s -> snd (prepareSecret e n data st) x = Some s.
Proof.
  intros e n data st OK. destruct (getToken_store e n st OK) as [A B].
  unfold prepareSecret, addBootstrapTokenToUserData.
  destruct (get "userData" data) as [u|]; [|split; [exact OK|auto]].
  destruct (getBootstrapTokenOrCreateIfNotExist e n st) as [[s| |] st1]; cbn [snd] in *; split; assumption.
Qed.

Lemma step_store : forall st o, storeOK st -> storeOK (fst (tokStep st o)).
Proof.
  intros st [e n data|f n|k] OK; cbn [tokStep].
  - assert (H := proj1 (prepare_store e n data st OK)).
    destruct (prepareSecret e n data st) as [[[d t]| |] st']; exact H.
  - unfold deleteBootstrapToken. destruct (getTokenIDAndSecretName n) as [[id k]|]; [|exact OK].
    destruct f; [exact OK|]. now apply storeOK_put_none.
  - now apply storeOK_put_none.
Qed.

Lemma handed_spec : forall ops st n t, storeOK st -> In (n, t) (snd (tokRun st ops)) ->
  5 <= String.length n /\ tokenText t /\
  exists key, t = (EncodeToString (idPart n) ++ "." ++ key)%string.
Proof.
  induction ops as [|o ops IH]; intros st n t OK I; [destruct I|].
  cbn [tokRun] in I. assert (OK1 := step_store st o OK).
  destruct (tokStep st o) as [st1 h1] eqn:S. destruct (tokRun st1 ops) as [st2 h2] eqn:R.
  cbn [snd fst] in *. apply in_app_or in I. destruct I as [I|I].
  - destruct o as [e m data|f m|k]; cbn [tokStep] in S; try (injection S as _ <-; destruct I).
    destruct (prepareSecret e m data st) as [[[d tk]| |] st'] eqn:P;
      injection S as <- <-; [|destruct I|destruct I].
    destruct I as [I|[]]. injection I as -> ->. destruct (prepare_good _ _ _ _ _ _ _ P) as (u & s & _ & G & T & _).
    destruct (getToken_spec _ _ _ _ _ OK G) as (L & _ & ID & TT & _).
    split; [exact L|]. split; [now rewrite T|]. exists (tkKey s). now rewrite T, ID.
  - apply (IH st1); [exact OK1|]. now rewrite R.
Qed.

Lemma tokens_differ : forall ops st a b ta tb, storeOK st ->
  In (a, ta) (snd (tokRun st ops)) -> In (b, tb) (snd (tokRun st ops)) ->
  idPart a <> idPart b -> ta <> tb.
Proof.
  intros ops st a b ta tb OK IA IB NE E.
  destruct (handed_spec _ _ _ _ OK IA) as (LA & _ & ka & EA).
  destruct (handed_spec _ _ _ _ OK IB) as (LB & _ & kb & EB).
  rewrite EA, EB in E. apply NE, enc_inj.
  destruct (sapp_split _ _ _ _ E) as [l [[A B]|[A B]]].
  - assert (l = ""). { apply (f_equal String.length) in A.
      rewrite slen_app, !tokenId_len in A by assumption. destruct l; [reflexivity|cbn in A; lia]. }
    subst l. now rewrite sapp_nil in A.
  - assert (l = ""). { apply (f_equal String.length) in A.
      rewrite slen_app, !tokenId_len in A by assumption. destruct l; [reflexivity|cbn in A; lia]. }
    subst l. now rewrite sapp_nil in A.
Qed.

(* A secret stays as long as nothing removes it. *)
Lemma step_keeps : forall st o k s, storeOK st -> st k = Some s -> ~ removes k o -> fst (tokStep st o) k = Some s.
Proof.
  intros st [e n data|f n|k'] k s OK E NR; cbn [tokStep].
  - assert (H := proj2 (prepare_store e n data st OK) k s E).
    destruct (prepareSecret e n data st) as [[[d t]| |] st']; exact H.
  - cbn [removes] in NR. unfold deleteBootstrapToken.
    destruct (getTokenIDAndSecretName n) as [[id k']|] eqn:T; [|exact E]. destruct f; [exact E|].
    cbn [fst]. unfold putTok. destruct (String.eqb_spec k k') as [EQ|NE]; [|exact E].
    exfalso. apply NR. exists id. now rewrite EQ.
  - cbn [removes] in NR. cbn [fst]. unfold putTok.
    destruct (String.eqb_spec k k') as [EQ|NE]; [exfalso; apply NR; now symmetry|exact E].
Qed.

Lemma run_keeps : forall ops st k s, storeOK st -> st k = Some s -> (forall o, In o ops -> ~ removes k o) ->
  storeOK (fst (tokRun st ops)) /\ fst (tokRun st ops) k = Some s.
Proof.
  induction ops as [|o ops IH]; intros st k s OK E NR; [now split|].
  cbn [tokRun]. assert (OK1 := step_store st o OK).
  assert (E1 := step_keeps st o k s OK E (NR o (or_introl eq_refl))).
  destruct (tokStep st o) as [st1 h1]. cbn [fst] in *.
  specialize (IH st1 k s OK1 E1 (fun x I => NR x (or_intror I))).
  destruct (tokRun st1 ops) as [st2 h2]. exact IH.
Qed.

(* Later passes of the same machine get the same token. *)
Lemma tokens_stable : forall e n data st d token st' ops e2 data2 d2 token2 st3, storeOK st ->
  prepareSecret e n data st = (Good (d, token), st') ->
  (forall o, In o ops -> ~ removes ("bootstrap-token-" ++ EncodeToString (idPart n))%string o) ->
  prepareSecret e2 n data2 (fst (tokRun st' ops)) = (Good (d2, token2), st3) -> token2 = token.
Proof.
  intros e n data st d token st' ops e2 data2 d2 token2 st3 OK P NR P2.
  destruct (prepare_good _ _ _ _ _ _ _ P) as (u & s & _ & G & T & _).
  destruct (getToken_spec _ _ _ _ _ OK G) as (L & OK' & ID & _ & S & _).
  rewrite ID in S. destruct (run_keeps ops st' _ s OK' S NR) as [OK2 S2].
  destruct (prepare_good _ _ _ _ _ _ _ P2) as (u2 & s2 & _ & G2 & T2 & _).
  destruct (getToken_spec _ _ _ _ _ OK2 G2) as (_ & _ & ID2 & _ & _ & _ & D2).
  rewrite ID2, S2 in D2. destruct D2 as [D2|[D2 _]]; [|discriminate]. injection D2 as <-. congruence.
Qed.

Lemma prepare_user : forall e n data st d token st' u, storeOK st -> machineName n ->
  get "userData" data = Some u ->
  prepareSecret e n data st = (Good (d, token), st') ->
  tokenText token /\
  (forall k, k <> "userData" -> get k d = get k data) /\
  exists r pt pn items,
    get "userData" d = Some r /\
    spelling PT ET u pt /\ spelling PN EN u pn /\
    u = render pt pn items /\ r = render token n items /\
    ~ Occurs pt r /\ ~ Occurs pn r /\
    (forall x, placeholder x -> ~ Occurs x u -> ~ Occurs x r).
Proof.
  intros e n data st d token st' u OK MN U P.
  destruct (prepare_good _ _ _ _ _ _ _ P) as (u' & s & U' & G & T & R & K).
  rewrite U in U'. injection U' as <-.
  destruct (getToken_spec _ _ _ _ _ OK G) as (_ & _ & _ & TT & _). rewrite <- T in TT.
  split; [exact TT|]. split; [exact K|].
  destruct (user_spec u token n (token_value _ TT) (name_value _ MN)) as (pt & pn & items & A & B & C & D & E & F & H).
  exists (fillName n (fillToken token u)), pt, pn, items.
  split; [exact R|]. split; [exact A|]. split; [exact B|]. split; [exact C|]. split; [exact D|].
  split; [exact E|]. split; [exact F|exact H].
Qed.

Lemma prepare_doc : forall e n data st d token st' u, storeOK st -> machineName n ->
  get "userData" data = Some u ->
  prepareSecret e n data st = (Good (d, token), st') ->
  tokenText token /\
  (forall k, k <> "userData" -> get k d = get k data) /\
  exists r pt pn items,
    get "userData" d = Some r /\
    spelling tokenPH tokenPHenc u pt /\ spelling namePH namePHenc u pn /\
    u = render pt pn items /\ r = render token n items /\
    ~ Occurs pt r /\ ~ Occurs pn r /\
    (forall x, isPlaceholder x -> ~ Occurs x u -> ~ Occurs x r).
Proof.
  intros e n data st d token st' u OK MN U P.
  assert (H := prepare_user e n data st d token st' u OK MN U P).
  unfold placeholder in H. rewrite ET_text, EN_text in H. exact H.
Qed.

Lemma prepare_none_left : forall e n data st d token st' u, storeOK st -> machineName n ->
  get "userData" data = Some u ->
  ~ (Occurs tokenPH u /\ Occurs tokenPHenc u) -> ~ (Occurs namePH u /\ Occurs namePHenc u) ->
  prepareSecret e n data st = (Good (d, token), st') ->
  exists r, get "userData" d = Some r /\ forall x, isPlaceholder x -> ~ Occurs x r.
Proof.
  intros e n data st d token st' u OK MN U NT NN P.
  destruct (prepare_doc e n data st d token st' u OK MN U P) as
    (_ & _ & r & pt & pn & items & R & ST & SN & _ & _ & FT & FN & F).
  exists r. split; [exact R|]. intros x [->|[->|[->| ->]]].
  - destruct ST as [[_ ->]|[NO _]]; [exact FT|]. apply F; [now left|exact NO].
  - destruct ST as [[O ->]|[NO ->]]; [|exact FT]. apply F; [now (right; left)|].
    intros K. apply NT. now split.
  - destruct SN as [[_ ->]|[NO _]]; [exact FN|]. apply F; [now (right; right; left)|exact NO].
  - destruct SN as [[O ->]|[NO ->]]; [|exact FN]. apply F; [now (right; right; right)|].
    intros K. apply NN. now split.
Qed.

(* Exactly when the pass fails or panics. *)
Lemma prepare_crash : forall e n data st,
  fst (prepareSecret e n data st) = Crash <-> get "userData" data <> None /\ String.length n < 5.
Proof.
  intros e n data st. unfold prepareSecret, addBootstrapTokenToUserData.
  destruct (get "userData" data) as [u|] eqn:U; [|cbn; split; [discriminate|intros [H _]; congruence]].
  unfold getBootstrapTokenOrCreateIfNotExist.
  destruct (getTokenIDAndSecretName n) as [[id k]|] eqn:T.
  - split.
    + intros H. exfalso. unfold addMachineNameToUserData in H.
      destruct (teGetFails e); [discriminate|].
      destruct (st k) as [s|].
      * rewrite get_put, String.eqb_refl in H. discriminate.
      * destruct (randomString 16 charset (teDraws e)) as [key|]; [|discriminate].
        destruct (teCreateFails e); [discriminate|].
        rewrite get_put, String.eqb_refl in H. discriminate.
    + intros [_ H]. apply tokenId_none in H. congruence.
  - apply tokenId_none in T. cbn. split; [intros _; split; [discriminate|exact T]|reflexivity].
Qed.

(* With enough draws and no failing call, a pass succeeds. *)
Lemma prepare_succeeds : forall e n data st u, 5 <= String.length n -> get "userData" data = Some u ->
  teGetFails e = false -> teCreateFails e = false -> 16 <= List.length (teDraws e) ->
  (forall d, In d (teDraws e) -> exists k, d = Some k /\ k < 36) ->
  exists d token st', prepareSecret e n data st = (Good (d, token), st').
Proof.
  intros e n data st u L U G C LD D. unfold prepareSecret, addBootstrapTokenToUserData. rewrite U.
  unfold getBootstrapTokenOrCreateIfNotExist. rewrite tokenId_spec by exact L. rewrite G.
  destruct (random_total 16 (teDraws e) LD D) as [key K].
  destruct (st ("bootstrap-token-" ++ EncodeToString (idPart n))%string) as [s|] eqn:E.
  - unfold addMachineNameToUserData. rewrite get_put, String.eqb_refl. eauto.
  - rewrite K, C. unfold addMachineNameToUserData. rewrite get_put, String.eqb_refl. eauto.
Qed.
