(** Machines made from the template of a MachineSet (C98): theorems. *)
Require Import Coq.ZArith.ZArith Coq.NArith.NArith Coq.Lists.List Coq.Strings.String Coq.Strings.Ascii Coq.Bool.Bool Coq.Arith.PeanoNat Coq.micromega.Lia.
From Verif Require Import Types StatusModel ValidModel MetaModel TmplModel OwnModel MSetModel MakeModel MakeSpec MakeProofs.
Import ListNotations.
Open Scope string_scope.
Open Scope list_scope.

Definition k_t (labels annots : Map) (provider : string) : Template := mkT labels annots "" "g" "MachineClass" "c" provider "node" "conf".
Definition k_s (labels annots : Map) (provider : string) (sel : Map) (es : list Expr) : MkSet := mkSet "set" 7 2 (k_t labels annots provider) ["f"] sel es.
Definition k_ok (_ : string) : bool := true.
Definition k_valid (s : MkSet) : Prop :=
  validateMachineSet (k_replicas s) (Some (k_labels s)) (t_labels (k_tmpl s)) (t_kind (k_tmpl s)) (t_class (k_tmpl s)) = Some [].

(** C98: whatever is made is what the template says, with the set as its only owner and controller. *)
Theorem C98_made : forall valid ok s m, createOne valid ok s = MMade m -> fromTemplate s m.
Proof. exact made_from. Qed.
Print Assumptions C98_made.

Example C98_made_case : exists m, createOne k_ok true (k_s [("a", "b"); ("c", "")] [("x", "y")] "" [("a", "b")] [Exists_ "c"]) = MMade m /\
  n_gen m = "set-" /\ get "c" (n_labels m) = Some "" /\ n_fins m = ["f"].
Proof. eexists. split; [vm_compute; reflexivity|]. auto. Qed.

(** C98: a machine is made whenever the API server takes it, unless the template has no labels. *)
Theorem C98_when : forall valid ok s,
  ((exists m, createOne valid ok s = MMade m) <-> ok = true /\ t_labels (k_tmpl s) <> []) /\
  (createOne valid ok s = ENoLabels <-> t_labels (k_tmpl s) = []) /\
  createOne valid ok s <> EBadRef.
Proof.
  intros valid ok s. rewrite create_one. destruct (t_labels (k_tmpl s)); destruct ok;
    (split; [split; [intros (mm & E); first [discriminate E | split; [reflexivity | discriminate]] | intros (A & B); first [discriminate A | destruct (B eq_refl) | eexists; reflexivity]]
            | split; [split; congruence | discriminate]]).
Qed.
Print Assumptions C98_when.

(** C98: a reference that is not that of a controller is refused before any call. *)
Theorem C98_reference : forall valid ok t fins parent r m, CreateMachinesWithControllerRef valid ok t fins parent r = MMade m ->
  exists x, r = Some x /\ n_owners m = [x] /\ r_ctrl x = Some true /\ r_block x = Some true /\ r_api x <> "" /\ r_kind x <> "".
Proof.
  intros valid ok t fins parent r m. unfold CreateMachinesWithControllerRef. destruct r as [x|]; [|discriminate]. destruct (validateControllerRef (Some x)) eqn:V; [|discriminate].
  unfold createMachines. cbv zeta. destruct (n_labels _); [discriminate|]. destruct ok; [|discriminate]. intros [= <-]. exists x. split; [reflexivity|]. split; [reflexivity|].
  unfold validateControllerRef in V. rewrite !andb_true_iff, !negb_true_iff, !String.eqb_neq in V. destruct V as (((A & B) & C) & D).
  unfold yes in C, D. destruct (r_ctrl x) as [[|]|]; try discriminate. destruct (r_block x) as [[|]|]; try discriminate. auto.
Qed.
Print Assumptions C98_reference.

Example C98_reference_case : CreateMachinesWithControllerRef k_ok true (k_t [("a", "b")] [] "") [] "set" (Some (mkRef "v" "K" "set" 7 (Some false) (Some true))) = EBadRef /\
  exists m, CreateMachinesWithControllerRef k_ok true (k_t [("a", "b")] [] "") [] "set" (Some (mkRef "v" "K" "set" 7 (Some true) (Some true))) = MMade m.
Proof. split; [reflexivity | eexists; vm_compute; reflexivity]. Qed.

(** C98: a made machine is claimed by the set that made it exactly if the template fits the
    selector, and by no other set whatever that one selects. *)
Theorem C98_claimed : forall valid ok s m id uid, createOne valid ok s = MMade m ->
  (claimOwned s (asObj id uid m) = true <-> fits s) /\
  (forall s', k_uid s' <> k_uid s -> claimOwned s' (asObj id uid m) = false).
Proof.
  intros valid ok s m id uid H. apply made_from in H. split.
  - rewrite (claimed_by s s m id uid H). rewrite (fits_selects s (t_labels (k_tmpl s))) by (intros k; reflexivity). intuition.
  - intros s' N. apply not_true_iff_false. rewrite (claimed_by s s' m id uid H). intros (E & _). exact (N E).
Qed.
Print Assumptions C98_claimed.

(** C98: in the model of claiming (C20, C21) such a machine is claimed without a write, by its set alone. *)
Theorem C98_claimed_without_write : forall valid ok s m id uid, createOne valid ok s = MMade m -> k_exprs s = [] -> fits s ->
  forall del l f store,
  ClaimObject (k_uid s) del l f (k_labels s) store (asObj id uid m) = (true, false, store) /\
  (forall me sel, me <> k_uid s -> ClaimObject me del l f sel store (asObj id uid m) = (false, false, store)).
Proof.
  intros valid ok s m id uid H E F del l f store. apply made_from in H. split; [apply claim_own; assumption|]. intros me sel N. apply (claim_other s); assumption.
Qed.
Print Assumptions C98_claimed_without_write.

(** C98: the template of a set that passed validation fits its selector, if the expressions do
    (validation does not look at them) and no empty value is asked for.
    Partial: otherwise see C98_runaway_refuted. *)
Theorem C98_validated_partial : forall s, k_valid s -> (forall k, ~ In (k, "") (k_labels s)) ->
  (forall e, In e (k_exprs s) -> holds (t_labels (k_tmpl s)) e) -> fits s.
Proof. exact valid_fits. Qed.
Print Assumptions C98_validated_partial.

Example C98_claimed_case : let s := k_s [("a", "b"); ("c", "d")] [] "" [("a", "b")] [In_ "c" ["d"; "e"]] in
  k_valid s /\ (forall k, ~ In (k, "") (k_labels s)) /\ (forall e, In e (k_exprs s) -> holds (t_labels (k_tmpl s)) e) /\
  exists m, createOne k_ok true s = MMade m /\ claimOwned s (asObj 1 2 m) = true.
Proof.
  split; [reflexivity|]. split; [intros k [E|[]]; discriminate|]. split; [intros e [<-|[]]; exists "d"; cbn; auto|].
  eexists. split; vm_compute; reflexivity.
Qed.

(** C98: machines of a set that a deployment made carry the hash of their template, fit the
    selector of their set, and that of no set with another hash. *)
Theorem C98_deployment : forall hash d fins es uid n valid ok m, createOne valid ok (setOf hash d fins es uid n) = MMade m ->
  (forall k v, In (k, v) (d_selector d) -> k <> hashKey -> get k (t_labels (d_template d)) = Some v) ->
  (forall e, In e es -> holds (withLabel (t_labels (d_template d)) hashKey (decimal (hash (d_template d) (d_collisions d)))) e) ->
  fits (setOf hash d fins es uid n) /\
  get hashKey (n_labels m) = Some (decimal (hash (d_template d) (d_collisions d))) /\
  (forall k, k <> hashKey -> get k (n_labels m) = get k (t_labels (d_template d))) /\
  (forall d' fins' es' uid' n', decimal (hash (d_template d) (d_collisions d)) <> decimal (hash (d_template d') (d_collisions d')) ->
     selects (k_labels (setOf hash d' fins' es' uid' n')) (k_exprs (setOf hash d' fins' es' uid' n')) (n_labels m) = false).
Proof.
  intros hash d fins es uid n valid ok m H A B. apply made_from in H as (S & _). split; [apply deployment_fits; assumption|].
  split; [rewrite S; apply hash_label|]. split.
  - intros k N. rewrite S. unfold setOf, newSet. cbn [k_tmpl s_template t_labels]. unfold withLabel. rewrite MetaProofs.get_put. apply String.eqb_neq in N. rewrite N. reflexivity.
  - intros d' fins' es' uid' n' N. apply not_true_iff_false. rewrite selects_iff. intros (X & _).
    pose proof (other_hash hash hash d d' fins fins' es es' uid uid' n n' N) as O. apply not_true_iff_false in O.
    specialize (X hashKey (decimal (hash (d_template d') (d_collisions d')))). rewrite S, hash_label in X.
    assert (K : In (hashKey, decimal (hash (d_template d') (d_collisions d'))) (k_labels (setOf hash d' fins' es' uid' n'))) by (left; reflexivity).
    apply X in K. congruence.
Qed.
Print Assumptions C98_deployment.

Definition k_d (l : Map) : Deploy := mkD "u" "dep" [("a", "b")] (k_t l [] "") None.
Definition k_hash (t : Template) (_ : option N) : N := N.of_nat (List.length (t_labels t)).
Example C98_deployment_case : exists m, createOne k_ok true (setOf k_hash (k_d [("a", "b")]) [] [] 3 2) = MMade m /\
  get hashKey (n_labels m) = Some "1" /\ decimal (k_hash (d_template (k_d [("a", "b")])) None) <> decimal (k_hash (d_template (k_d [("a", "b"); ("c", "d")])) None).
Proof. eexists. split; [vm_compute; reflexivity|]. split; [reflexivity | vm_compute; discriminate]. Qed.

(** C98: a made machine counts as one of the set's replicas at once, unless the template asks for its deletion. *)
Theorem C98_counts : forall valid ok s m id now, createOne valid ok s = MMade m ->
  (isActive (asMach id now m) = true <-> ~ asksDeletion (t_annotations (k_tmpl s))) /\
  (isStale (asMach id now m) = true <-> asksDeletion (t_annotations (k_tmpl s))).
Proof.
  intros valid ok s m id now H. apply made_from in H. destruct (fresh_counts s m id now H) as (A & B). rewrite B, negb_true_iff, A. split; [|tauto].
  rewrite not_true_iff_false. tauto.
Qed.
Print Assumptions C98_counts.

(** C98: the name of a machine is a DNS name of at most 63 characters. *)
Theorem C98_name : forall valid ok s m suf, createOne valid ok s = MMade m -> subdomain (k_name s) -> suffix5 suf ->
  subdomain (generated (n_gen m) suf) /\ (String.length (generated (n_gen m) suf) <= 63)%nat.
Proof. intros valid ok s m suf H D S. apply made_is in H as (-> & _ & _). apply name_ok; assumption. Qed.
Print Assumptions C98_name.

(** C98: sets with different names give different names to their machines, if these names are
    short enough to be kept.
    Partial: long names are cut (C98_long_names_refuted). *)
Theorem C98_names_apart_partial : forall valid ok s s' m m' x y, createOne valid ok s = MMade m -> createOne valid ok s' = MMade m' ->
  valid (k_name s ++ "-")%string = true -> valid (k_name s' ++ "-")%string = true ->
  (String.length (k_name s) <= 57)%nat -> (String.length (k_name s') <= 57)%nat -> suffix5 x -> suffix5 y ->
  generated (n_gen m) x = generated (n_gen m') y -> k_name s = k_name s' /\ x = y.
Proof.
  intros valid ok s s' m m' x y H H' V V' L L' X Y E. apply made_is in H as (-> & _ & _). apply made_is in H' as (-> & _ & _).
  exact (names_apart valid _ _ x y V V' L L' X Y E).
Qed.
Print Assumptions C98_names_apart_partial.

Lemma k_suffix : suffix5 "b2c4d".
Proof.
  split; [reflexivity|]. intros i c G. do 5 (destruct i as [|i]; [injection G as <-; first [apply a_low; cbn; lia | apply a_num; cbn; lia]|]). discriminate G.
Qed.
Example C98_name_case : subdomain "dep-x.1" /\ suffix5 "b2c4d" /\ generated (getMachinesPrefix k_ok "dep-x.1") "b2c4d" = "dep-x.1-b2c4d".
Proof.
  split; [|split; [exact k_suffix | reflexivity]].
  repeat first [apply l_nil | apply l_dash; [discriminate|] | apply l_dot | apply l_char; [first [apply a_low; cbn; lia | apply a_num; cbn; lia]|]].
Qed.

(** C98 fails for long names: two sets share the names of their machines. *)
Theorem C98_long_names_refuted : exists a b x, a <> b /\ suffix5 x /\ generated (getMachinesPrefix k_ok a) x = generated (getMachinesPrefix k_ok b) x.
Proof.
  exists "a123456789b123456789c123456789d123456789e123456789f1234567-1", "a123456789b123456789c123456789d123456789e123456789f1234567-2", "b2c4d".
  split; [discriminate|]. split; [exact k_suffix | reflexivity].
Qed.
Print Assumptions C98_long_names_refuted.

Definition k_zoned : MkSet := k_s [("a", "b")] [] "" [("a", "b")] [In_ "zone" ["z1"; "z2"]].
(** C98 fails: with an expression that the template does not satisfy, validation passes, yet no
    machine is ever claimed and each reconcile makes new ones. *)
Theorem C98_runaway_refuted : exists s m, k_valid s /\ createOne k_ok true s = MMade m /\
  forall (made : list nat), let claimed := filter (fun i => claimOwned s (asObj i i m)) made in
    claimed = [] /\ pl_create (manageReplicas (k_replicas s) false (map (fun i => asMach i 0 m) claimed)) = 2%nat.
Proof.
  exists k_zoned, (GetMachineFromTemplate k_ok (k_tmpl k_zoned) ["f"] "set" (Some (mkRef "machine.sapcloud.io/v1alpha1" "MachineSet" "set" 7 (Some true) (Some true)))).
  split; [reflexivity|]. split; [vm_compute; reflexivity|]. intros made. cbv zeta.
  remember (GetMachineFromTemplate _ _ _ _ _) as m eqn:M.
  assert (E : filter (fun i : nat => claimOwned k_zoned (asObj i i m)) made = []).
  { induction made as [|i l IH]; [reflexivity|]. cbn [filter]. replace (claimOwned k_zoned (asObj i i m)) with false; [exact IH | subst m; vm_compute; reflexivity]. }
  rewrite E. split; reflexivity.
Qed.
Print Assumptions C98_runaway_refuted.

(** C98 fails: a template with an annotation that asks for deletion passes validation; all its
    machines are deleted and made again, without end. *)
Theorem C98_deleted_at_once_refuted : exists s m, k_valid s /\ fits s /\ createOne k_ok true s = MMade m /\
  forall (made : list nat), let view := map (fun i => asMach i 0 m) made in
    pl_stale (manageReplicas (k_replicas s) false view) = view /\ pl_create (manageReplicas (k_replicas s) false view) = 2%nat.
Proof.
  exists (k_s [("a", "b")] [("machinepriority.machine.sapcloud.io", "1")] "" [("a", "b")] []). eexists. split; [reflexivity|].
  split; [split; [intros k v [[= <- <-]|[]]; reflexivity | intros e []]|]. split; [vm_compute; reflexivity|].
  intros made. cbv zeta. unfold manageReplicas.
  match goal with |- context [map ?f made] => assert (S : filter isStale (map f made) = map f made) by (clear; induction made as [|i l IH]; [reflexivity|]; cbn [map filter]; rewrite IH; reflexivity);
    assert (A : filter isActive (map f made) = []) by (clear; induction made as [|i l IH]; [reflexivity|]; cbn [map filter]; rewrite IH; reflexivity) end.
  rewrite S, A. split; reflexivity.
Qed.
Print Assumptions C98_deleted_at_once_refuted.

(** C98 fails: a template can name a node and a VM; then all machines of the set claim to be these. *)
Theorem C98_preset_refuted : exists s, k_valid s /\ fits s /\ forall valid m, createOne valid true s = MMade m -> get "node" (n_labels m) = Some "n1" /\ n_provider m = "vm-1".
Proof.
  exists (k_s [("a", "b"); ("node", "n1")] [] "vm-1" [("a", "b")] []). split; [reflexivity|].
  split; [split; [intros k v [[= <- <-]|[]]; reflexivity | intros e []]|].
  intros valid m H. apply made_is in H as (-> & _ & _). split; reflexivity.
Qed.
Print Assumptions C98_preset_refuted.
