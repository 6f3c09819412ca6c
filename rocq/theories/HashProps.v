(** Labelling of adopted MachineSets with the hash of their template (C88 to C90). *)
Require Import Coq.ZArith.ZArith Coq.Lists.List Coq.Strings.String Coq.Bool.Bool Coq.micromega.Lia.
From Verif Require Import MetaModel MetaSpec MetaProofs TmplModel HashModel HashSpec HashProofs.
Import ListNotations.
Open Scope string_scope.
Open Scope list_scope.
Open Scope Z_scope.

(** C88. The selector of an adopted set is narrowed to the hash only after the machines of the
    list that count have the label, and after the set was seen with as many labelled machines as
    it wants; so they stay with the set. Partial: Failed and Terminating machines, and machines
    that do not match the selector of the deployment, are left out. *)
Theorem C88_order_partial : forall hash is machines a e pre b n post,
  hash <> "" -> honest a ->
  addHashKey hash is machines a = (e, pre ++ CSet b n :: post) -> narrows b n ->
  (forall m, In m machines -> counts m -> labelled hash a pre m) /\
  (exists s, In (Some s) (a_wait2 a) /\ hs_full s = hs_replicas s) /\
  post = [].
Proof.
  intros hash is ms a e pre b n post N Ho E Nar. destruct (addHash_writes _ _ _ _ _ _ E) as (c1 & c2 & c3 & T & P1 & P2 & P3).
  assert (NS : ~ In (CSet b n) (c1 ++ c2)).
  { intros I. apply in_app_or in I as [I | I].
    - destruct P1 as [-> | (s & s' & g & o & u & j & _ & B & ->)]; [destruct I|]. destruct I as [I | []]. injection I as -> <-.
      apply labelTemplate_change in B. apply Nar. cbn [hs_sel]. apply B.
    - destruct P2 as [-> | (ok & L)]; [destruct I|]. destruct (labelMachines_writes _ _ _ _ _ N L _ I) as (x & j & m & _ & X). discriminate. }
  destruct P3 as [-> | ((s & s' & g & o & u & j & A & B & ->) & L & W)].
  - exfalso. apply NS. rewrite app_nil_r in T. rewrite <- T. apply in_or_app. right. left. reflexivity.
  - rewrite app_assoc in T.
    assert (H : post = [] /\ pre = c1 ++ c2).
    { destruct (exists_last (l := CSet b n :: post)) as (l & x & X); [discriminate|]. rewrite X, app_assoc in T. apply app_inj_tail in T as (T & ->).
      destruct post as [| y post].
      - destruct l as [| z l]; [|destruct l; discriminate]. injection X as <-. rewrite app_nil_r in T. auto.
      - exfalso. destruct l as [| z l]; [discriminate|]. injection X as <- X. apply NS. rewrite <- T. apply in_or_app. right. left. reflexivity. }
    destruct H as (-> & ->). split; [|split; [exact W | reflexivity]].
    intros m I C. destruct (labelMachines_all _ _ _ _ N Ho L m I C) as [H | [H | (x & y & I' & H)]].
    + left. exact H.
    + right. left. exact H.
    + right. right. exists x, y. split; [apply in_or_app; right; exact I' | exact H].
Qed.
Print Assumptions C88_order_partial.

(** No write changes anything but the label with the hash: neither other labels, nor other parts
    of selector and template, nor the replicas. *)
Theorem C88_only_label : forall hash is machines a,
  hash <> "" ->
  forall x, In x (snd (addHashKey hash is machines a)) ->
  match x with
  | CSet b n => onlyKeySel (hs_sel n) (hs_sel b) /\ onlyKey (hs_labels n) (hs_labels b) /\ onlyKey (hs_tmpl n) (hs_tmpl b) /\ hs_replicas n = hs_replicas b
  | CMach b n => onlyKey (hm_labels n) (hm_labels b) /\ get key (hm_labels n) = Some hash /\ hm_name n = hm_name b /\ hm_phase n = hm_phase b /\ hm_owner n = hm_owner b
  end.
Proof.
  intros hash is ms a N x I. destruct (addHashKey hash is ms a) as (e, tr) eqn:E. cbn [snd] in I.
  destruct (addHash_writes _ _ _ _ _ _ E) as (c1 & c2 & c3 & -> & P1 & P2 & P3).
  assert (R : forall m : Map, onlyKey m m) by (intros m k _; reflexivity).
  assert (RS : forall m, onlyKeySel m m) by (intros [m|]; [apply R | exact Logic.I]).
  apply in_app_or in I as [I | I]; [|apply in_app_or in I as [I | I]].
  - destruct P1 as [-> | (s & s' & g & o & u & j & _ & B & ->)]; [destruct I|]. destruct I as [<- | []]. cbn [hs_sel hs_labels hs_tmpl hs_replicas].
    apply labelTemplate_change in B as (-> & -> & -> & ->). repeat split; auto using only_put.
  - destruct P2 as [-> | (ok & L)]; [destruct I|]. destruct (labelMachines_writes _ _ _ _ _ N L _ I) as (nm & j & m & _ & ->).
    cbn [hm_labels hm_name hm_phase hm_owner]. split; [apply only_put|]. rewrite get_put. auto.
  - destruct P3 as [-> | ((s & s' & g & o & u & j & A & B & ->) & _)]; [destruct I|]. destruct I as [<- | []]. cbn [hs_sel hs_labels hs_tmpl hs_replicas].
    apply labelSelector_change in B as (sel & -> & -> & -> & -> & ->). cbn [onlyKeySel]. repeat split; auto using only_put.
Qed.
Print Assumptions C88_only_label.

(** A set that is handed on has the label in its selector; one that has it is not written at all. *)
Theorem C88_settles : forall hash is machines a,
  hash <> "" ->
  (forall s tr, addHashKey hash is machines a = (EDone s, tr) -> exists sel h, hs_sel s = Some sel /\ get key sel = Some h /\ h <> "") /\
  (forall sel h, hs_sel is = Some sel -> get key sel = Some h -> h <> "" -> addHashKey hash is machines a = (EDone is, [])).
Proof.
  intros hash is ms a N. split.
  - intros s tr E. destruct (addHash_done _ _ _ _ _ _ N E) as (sel & S & h & H). exists sel, h. tauto.
  - intros sel h S G NE. unfold addHashKey. rewrite S. unfold read. change key with "machine-template-hash" in G. rewrite G.
    apply String.eqb_neq in NE. rewrite NE. reflexivity.
Qed.
Print Assumptions C88_settles.

(** The narrowed selector fits the template if the old one did and the template has the label. *)
Theorem C88_fits : forall hash is machines a e pre b n post sel,
  hash <> "" ->
  addHashKey hash is machines a = (e, pre ++ CSet b n :: post) -> narrows b n ->
  hs_sel b = Some sel -> matchesSel sel (hs_tmpl b) -> get key (hs_tmpl b) = Some hash ->
  exists sel', hs_sel n = Some sel' /\ matchesSel sel' (hs_tmpl n).
Proof.
  intros hash is ms a e pre b n post sel N E Nar S M T.
  destruct (addHash_writes _ _ _ _ _ _ E) as (c1 & c2 & c3 & Tr & P1 & P2 & P3).
  assert (I : In (CSet b n) (c1 ++ c2 ++ c3)) by (rewrite <- Tr; apply in_or_app; right; left; reflexivity).
  apply in_app_or in I as [I | I]; [|apply in_app_or in I as [I | I]].
  - destruct P1 as [-> | (s & s' & g & o & u & j & _ & B & ->)]; [destruct I|]. destruct I as [I | []]. injection I as -> <-.
    apply labelTemplate_change in B. contradiction Nar. apply B.
  - destruct P2 as [-> | (ok & L)]; [destruct I|]. destruct (labelMachines_writes _ _ _ _ _ N L _ I) as (x & j & m & _ & X). discriminate.
  - destruct P3 as [-> | ((s & s' & g & o & u & j & A & B & ->) & _)]; [destruct I|]. destruct I as [I | []]. injection I as -> <-. cbn [hs_sel hs_tmpl].
    apply labelSelector_change in B as (sel0 & S0 & -> & _ & -> & _). rewrite S in S0. injection S0 as <-. eexists. split; [reflexivity|].
    intros k v G. rewrite get_put in G. destruct (String.eqb_spec k "machine-template-hash") as [-> | NE]; [injection G as <-; exact T | exact (M k v G)].
Qed.
Print Assumptions C88_fits.

(** A set of two with an unlabelled selector; one machine has to be labelled. *)
Definition h_set : HSet := mkHS (Some [("role", "worker")]) [("role", "worker")] [("role", "worker")] 2 1 1 0.
Definition h_m1 : HMach := mkHM "m1" "Running" (Some "u") [("role", "worker")].
Definition h_m2 : HMach := mkHM "m2" "Running" (Some "u") [("machine-template-hash", "77"); ("role", "worker")].
(** The set after step 1, as cached. *)
Definition h_set1 (full : Z) : HSet := mkHS (Some [("role", "worker")]) [("role", "worker")] [("machine-template-hash", "77"); ("role", "worker")] 2 2 2 full.
Definition h_calm (full : Z) : Answers :=
  mkA (fun _ => (Some h_set, UOk 2 1 0)) [Some h_set; Some (h_set1 0)]
      (fun n _ => (Some (if String.eqb n "m1" then h_m1 else mkHM n "Running" (Some "u") []), UOk 0 0 0))
      [Some (h_set1 0); Some (h_set1 full)] (fun _ => (Some (h_set1 full), UOk 3 2 full)).
Example C88_case :
  honest (h_calm 2) /\
  exists s, addHashKey "77" h_set [h_m1; h_m2] (h_calm 2) =
    (EDone s, [CSet h_set (mkHS (Some [("role", "worker")]) [("role", "worker")] [("machine-template-hash", "77"); ("role", "worker")] 2 2 1 0);
               CMach h_m1 (mkHM "m1" "Running" (Some "u") [("machine-template-hash", "77"); ("role", "worker")]);
               CSet (h_set1 2) s]) /\
  hs_sel s = Some [("machine-template-hash", "77"); ("role", "worker")] /\ narrows (h_set1 2) s.
Proof.
  split.
  - intros n i m E. cbn in E. destruct (String.eqb_spec n "m1") as [-> | _]; injection E as <-; reflexivity.
  - eexists. split; [reflexivity|]. split; [reflexivity | discriminate].
Qed.

(** Machines left out are orphaned: the set selected them before and does not afterwards, and no
    write of the pass labels them. (1) A Failed machine. (2) A running machine that the set
    selects but the deployment does not. *)
Theorem C88_orphans_refuted :
  (exists hash is dsel uid all a s tr m sel sel',
     hash <> "" /\ honest a /\ addHashKey hash is (machinesOf dsel uid all) a = (EDone s, tr) /\
     In m all /\ hm_owner m = Some uid /\ hm_phase m = "Failed" /\ selects dsel (hm_labels m) = true /\
     hs_sel is = Some sel /\ selects sel (hm_labels m) = true /\ hs_sel s = Some sel' /\ selects sel' (hm_labels m) = false) /\
  (exists hash is dsel uid all a s tr m sel sel',
     hash <> "" /\ honest a /\ addHashKey hash is (machinesOf dsel uid all) a = (EDone s, tr) /\
     In m all /\ hm_owner m = Some uid /\ hm_phase m = "Running" /\ selects dsel (hm_labels m) = false /\
     hs_sel is = Some sel /\ selects sel (hm_labels m) = true /\ hs_sel s = Some sel' /\ selects sel' (hm_labels m) = false).
Proof.
  assert (Ho : honest (h_calm 2)).
  { intros n i m E. cbn in E. destruct (String.eqb_spec n "m1") as [-> | _]; injection E as <-; reflexivity. }
  split.
  - exists "77", h_set, [("role", "worker")], "u", [h_m1; mkHM "m3" "Failed" (Some "u") [("role", "worker")]], (h_calm 2).
    eexists. eexists. exists (mkHM "m3" "Failed" (Some "u") [("role", "worker")]), [("role", "worker")]. eexists.
    split; [discriminate|]. split; [exact Ho|]. split; [reflexivity|]. split; [cbn; auto|]. repeat split.
  - exists "77", h_set, [("role", "worker"); ("zone", "a")], "u",
      [mkHM "m1" "Running" (Some "u") [("role", "worker"); ("zone", "a")]; mkHM "m3" "Running" (Some "u") [("role", "worker")]], (h_calm 2).
    eexists. eexists. exists (mkHM "m3" "Running" (Some "u") [("role", "worker")]), [("role", "worker")]. eexists.
    split; [discriminate|]. split; [exact Ho|]. split; [reflexivity|]. split; [cbn; auto|]. repeat split.
Qed.
Print Assumptions C88_orphans_refuted.

(** C89. The labelling does not crash the controller — if the set has a selector and is still
    found in the last step.
    Partial: otherwise it does (C89_crash_refuted). *)
Theorem C89_no_crash_partial : forall hash is machines a tr,
  hs_sel is <> None -> (forall i, exists s, fst (a_ask3 a i) = Some s /\ hs_sel s <> None) ->
  addHashKey hash is machines a <> (EPanic, tr).
Proof.
  intros hash is ms a tr S A E. destruct (addHash_panic _ _ _ _ _ E) as [H | [(j & H) | (j & s & H & H')]].
  - exact (S H).
  - destruct (A j) as (s & X & _). congruence.
  - destruct (A j) as (s' & X & Y). rewrite H in X. injection X as <-. exact (Y H').
Qed.
Print Assumptions C89_no_crash_partial.
Example C89_case : hs_sel h_set <> None /\ (forall i, exists s, fst (a_ask3 (h_calm 2) i) = Some s /\ hs_sel s <> None).
Proof. split; [discriminate|]. intros i. exists (h_set1 2). split; [reflexivity | discriminate]. Qed.

(** Otherwise it does: (1) for every set without selector; (2) if the set is deleted while its
    machines are labelled. *)
Theorem C89_crash_refuted :
  (forall hash is machines a, hs_sel is = None -> addHashKey hash is machines a = (EPanic, [])) /\
  (exists hash is machines a tr, hs_sel is <> None /\ fst (a_ask3 a 0) = None /\ addHashKey hash is machines a = (EPanic, tr)).
Proof.
  split.
  - intros hash is ms a S. unfold addHashKey. rewrite S. reflexivity.
  - exists "77", h_set, [h_m1; h_m2], (mkA (a_ask1 (h_calm 2)) (a_wait1 (h_calm 2)) (a_mach (h_calm 2)) (a_wait2 (h_calm 2)) (fun _ => (None, UFail))).
    eexists. split; [discriminate|]. split; reflexivity.
Qed.
Print Assumptions C89_crash_refuted.

(** C88. A set without the label on its selector that a pass finishes has it on its selector and
    on itself. *)
Theorem C88_both : forall hash is machines a s tr sel,
  hash <> "" -> hs_sel is = Some sel -> get key sel = None ->
  addHashKey hash is machines a = (EDone s, tr) ->
  get key (hs_labels s) = Some hash /\ exists sel', hs_sel s = Some sel' /\ get key sel' = Some hash.
Proof.
  intros hash is ms a s tr sel N SE K E. unfold addHashKey in E. rewrite SE in E.
  change key with "machine-template-hash" in *.
  assert (RD : forall m, read hashKey m = hash -> get "machine-template-hash" m = Some hash).
  { intros m R. unfold read in R. destruct (get "machine-template-hash" m) as [v|]; [congruence|]. subst. congruence. }
  replace (read hashKey sel) with "" in E by (unfold read; rewrite K; reflexivity). cbn [String.eqb negb] in E.
  destruct (updateIS 4 0 (labelTemplate hash) (a_ask1 a)) as (r1, c1). destruct r1 as [| b | s1]; try discriminate.
  destruct (_ && _); [discriminate|]. destruct (labelMachines hash (a_mach a) ms) as (ok, c2). destruct (negb ok); [discriminate|].
  destruct (negb (poll _ _)); [discriminate|].
  destruct (updateIS 4 0 (labelSelector hash) (a_ask3 a)) as (r3, c3) eqn:U3. destruct r3 as [| [] | s3]; try discriminate. injection E as -> _.
  destruct (updateIS_spec _ _ _ _ _ _ U3) as [(_ & [(x & X & Y & _) | [X | (b & X)]]) | (x & s' & g & o & f & j & _ & Y & X & _)]; try discriminate.
  - injection X as <-. unfold labelSelector in Y. destruct (hs_sel s) as [sl|]; [|discriminate].
    destruct (String.eqb_spec (read hashKey (hs_labels s)) hash) as [e1|], (String.eqb_spec (read hashKey sl) hash) as [e2|]; cbn in Y; try discriminate.
    split; [apply RD; exact e1|]. exists sl. split; [reflexivity|apply RD; exact e2].
  - injection X as ->. cbn [hs_sel hs_labels]. unfold labelSelector in Y. destruct (hs_sel x) as [sl|]; [|discriminate]. destruct (_ && _) in Y; [discriminate|].
    injection Y as <-. cbn [hs_sel hs_labels]. rewrite get_put. split; [reflexivity|]. eexists. split; [reflexivity|]. rewrite get_put. reflexivity.
Qed.
Print Assumptions C88_both.
Example C88_both_case : exists s tr, addHashKey "77" h_set [h_m1; h_m2] (h_calm 2) = (EDone s, tr) /\
  get key (hs_labels s) = Some "77" /\ get key (hs_labels h_set) = None.
Proof. eexists. eexists. split; [vm_compute; reflexivity|]. split; reflexivity. Qed.

(** C90. If no call fails, the cache follows (or the set was seen at once) and the set reaches its number of labelled machines
    within the minute, the set is labelled in one pass.
    Partial: otherwise a worker is held up (C90_blocked_refuted). *)
Theorem C90_labelled_partial : forall hash is machines a s1 g o f l' s2' r' s3 g' o' f',
  hash <> "" -> hs_sel is <> None ->
  a_ask1 a 0 = (Some s1, UOk g o f) ->
  (hs_gen s1 <= hs_obs s1 /\ g <= o \/
   exists l s2 r, a_wait1 a = l ++ Some s2 :: r /\ (forall x, In x l -> x <> None) /\ Z.max g (hs_gen s1) <= hs_obs s2) ->
  (forall n i, exists m, fst (a_mach a n i) = Some m) -> (forall n i, exists x y z, snd (a_mach a n i) = UOk x y z) ->
  a_wait2 a = l' ++ Some s2' :: r' -> (forall x, In x l' -> x <> None) -> Z.max g (hs_gen s1) <= hs_obs s2' -> hs_full s2' = hs_replicas s2' ->
  a_ask3 a 0 = (Some s3, UOk g' o' f') -> hs_sel s3 <> None ->
  exists s tr, addHashKey hash is machines a = (EDone s, tr).
Proof.
  intros hash is ms a s1 g o f l' s2' r' s3 g' o' f' N S A1 W1 M1 M2 W2 L2 G2 F2 A3 S3. unfold addHashKey.
  destruct (hs_sel is) as [sel|]; [|congruence]. destruct (negb (String.eqb (read hashKey sel) "")); [eauto|].
  assert (U : exists x c, updateIS 4 0 (labelTemplate hash) (a_ask1 a) = (ROk x, c) /\ hs_gen x <= Z.max g (hs_gen s1) /\
            (hs_gen s1 <= hs_obs s1 /\ g <= o -> hs_gen x <= hs_obs x)).
  { cbn [updateIS]. rewrite A1. cbn [fst snd]. unfold labelTemplate. destruct (String.eqb _ _).
    - eexists. eexists. split; [reflexivity|]. lia.
    - eexists. eexists. split; [reflexivity|]. cbn [hs_gen hs_obs]. lia. }
  destruct U as (x & c & -> & G & GO).
  assert (P1 : (hs_obs x <? hs_gen x) && negb (poll (updated (hs_gen x)) (a_wait1 a)) = false).
  { destruct W1 as [H|(l & s2 & r & W1 & L1 & G1)].
    - specialize (GO H). destruct (Z.ltb_spec (hs_obs x) (hs_gen x)); [lia|reflexivity].
    - assert (PR : poll (updated (hs_gen x)) (a_wait1 a) = true).
      { rewrite W1. apply poll_reaches; [exact L1|]. unfold updated. apply Z.leb_le. lia. }
      rewrite PR. apply andb_false_r. }
  assert (P2 : poll (populated (hs_gen x)) (a_wait2 a) = true).
  { rewrite W2. apply poll_reaches; [exact L2|]. unfold populated. rewrite F2, Z.eqb_refl, andb_true_r. apply Z.leb_le. lia. }
  rewrite P1, P2. clear P1.
  pose proof (calm_machines hash (a_mach a) ms M1 M2) as CM. destruct (labelMachines hash (a_mach a) ms) as (ok, c2). cbn [fst] in CM. subst ok. cbn [negb].
  cbn [updateIS]. rewrite A3. cbn [fst snd]. unfold labelSelector. destruct (hs_sel s3) as [sl|]; [|congruence].
  destruct (_ && _); eauto.
Qed.
Print Assumptions C90_labelled_partial.
Example C90_case : exists s tr, addHashKey "77" h_set [h_m1; h_m2] (h_calm 2) = (EDone s, tr) /\ List.length tr = 3%nat.
Proof. eexists. eexists. split; reflexivity. Qed.

(** The machines looked at are those matching the selector of the deployment that have the set as
    their controller. *)
Theorem C88_machines : forall dsel uid all m,
  isMap dsel ->
  (In m (machinesOf dsel uid all) <-> In m all /\ hm_owner m = Some uid /\ matchesSel dsel (hm_labels m)).
Proof.
  intros dsel uid all m M. unfold machinesOf. rewrite !filter_In.
  assert (S : selects dsel (hm_labels m) = true <-> matchesSel dsel (hm_labels m)).
  { unfold selects, matchesSel. rewrite forallb_forall. split.
    - intros H k v G. specialize (H (k, v) (get_In k v dsel G)). cbn in H. destruct (get k (hm_labels m)) as [w|]; [|discriminate]. apply String.eqb_eq in H. congruence.
    - intros H (k, v) I. rewrite (H k v (In_get k v dsel M I)). apply String.eqb_refl. }
  assert (O : match hm_owner m with Some u => String.eqb u uid | None => false end = true <-> hm_owner m = Some uid).
  { destruct (hm_owner m) as [u|]; [rewrite String.eqb_eq|]; split; congruence. }
  rewrite S, O. tauto.
Qed.
Print Assumptions C88_machines.
Example C88_machines_case :
  machinesOf [("role", "worker")] "u" [mkHM "m1" "Running" (Some "u") [("role", "worker")]; mkHM "m2" "Running" None [("role", "worker")]; mkHM "m3" "Running" (Some "u") []] =
  [mkHM "m1" "Running" (Some "u") [("role", "worker")]].
Proof. reflexivity. Qed.

(** The deployment is worked on only with all its sets, in their order and each handed on by its
    own labelling: no set is left out. *)
Theorem C90_all_sets : forall l r,
  fst (syncSets l) = Some (Some r) ->
  Forall2 (fun '(hash, is, ms, a) s => fst (addHashKey hash is ms a) = EDone s) l r.
Proof.
  induction l as [| (((hash, is), ms), a) l IH]; intros r E; cbn [syncSets] in E.
  - injection E as <-. constructor.
  - destruct (addHashKey hash is ms a) as ([ | | s], c) eqn:A; try discriminate.
    destruct (syncSets l) as ([[l'|]|], c'); try discriminate. injection E as <-. constructor; [rewrite A; reflexivity | apply IH; reflexivity].
Qed.
Print Assumptions C90_all_sets.

(** The pass over all sets writes what the labellings of the single sets write, set after set, and
    nothing else. *)
Theorem C90_calls : forall l r,
  fst (syncSets l) = Some (Some r) ->
  snd (syncSets l) = flat_map (fun '(hash, is, ms, a) => snd (addHashKey hash is ms a)) l.
Proof.
  induction l as [| (((hash, is), ms), a) l IH]; intros r E; cbn [syncSets flat_map] in *; [reflexivity|].
  destruct (addHashKey hash is ms a) as ([ | | s], c) eqn:A; try discriminate.
  destruct (syncSets l) as ([[l'|]|], c'); try discriminate. cbn [snd] in *. f_equal. apply (IH l'). reflexivity.
Qed.
Print Assumptions C90_calls.
Example C90_calls_case : fst (syncSets [("78", h_set, [], h_calm 2); ("77", h_set, [h_m1], h_calm 2)]) <> Some None /\
  (List.length (snd (addHashKey "78" h_set [] (h_calm 2))) < List.length (snd (syncSets [("78", h_set, [], h_calm 2); ("77", h_set, [h_m1], h_calm 2)])))%nat.
Proof. split; [discriminate|vm_compute; repeat constructor]. Qed.

(** One adopted set that does not reach its number of machines keeps the sets after it, and with
    them the whole deployment, from being worked on. *)
Theorem C90_blocked_refuted : forall hash is machines a sel s1 c1,
  hs_sel is = Some sel -> get key sel = None ->
  updateIS 4 0 (labelTemplate hash) (a_ask1 a) = (ROk s1, c1) ->
  (forall s, In (Some s) (a_wait2 a) -> hs_full s < hs_replicas s) ->
  forall rest, fst (syncSets ((hash, is, machines, a) :: rest)) = Some None.
Proof.
  intros hash is ms a sel s1 c1 S K U W rest. cbn [syncSets]. unfold addHashKey. rewrite S. unfold read. change key with "machine-template-hash" in K. rewrite K.
  change (String.eqb "" "") with true. cbn [negb]. rewrite U.
  assert (P : poll (populated (hs_gen s1)) (a_wait2 a) = false).
  { destruct (poll (populated (hs_gen s1)) (a_wait2 a)) eqn:P; [|reflexivity]. destruct (poll_true _ _ P) as (s & I & C). specialize (W s I).
    unfold populated in C. apply andb_true_iff in C as (_ & C). apply Z.eqb_eq in C. lia. }
  destruct (_ && negb _); [reflexivity|]. destruct (labelMachines hash (a_mach a) ms) as (ok, c2). destruct ok; cbn [negb]; [|reflexivity].
  rewrite P. reflexivity.
Qed.
Print Assumptions C90_blocked_refuted.
Example C90_blocked_case : fst (syncSets [("77", h_set, [h_m1; h_m2], h_calm 1); ("78", h_set, [], h_calm 2)]) = Some None /\
  exists x y, fst (syncSets [("78", h_set, [], h_calm 2); ("77", h_set, [h_m1], h_calm 2)]) = Some (Some [x; y]).
Proof. split; [reflexivity|]. eexists. eexists. reflexivity. Qed.
