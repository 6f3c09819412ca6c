(* C115: how the programs are checked, and why a list of checked programs
   never writes what it does not own. *)
Require Import List String Arith Bool PeanoNat Lia.
From Verif Require Import MemModel.
Import ListNotations.
Open Scope string_scope.

(* ---- kinds and levels ---- *)
(* A cell of a worker is Deep if everything below it is the worker's own; a
   shell of depth 0 if nothing is known of what is below; a shell of depth
   n+1 if everything directly below is a shell of depth n; a list if
   everything directly below is cached. *)
Inductive Kind := Deep | Sh (n : nat) | Lst.
(* Nothing, a cell of the worker, a cached cell, a cell the worker may see. *)
Inductive Level := Bot | K (k : Kind) | C | Any.

Definition keq (a b : Kind) : bool :=
  match a, b with
  | Deep, Deep => true
  | Sh n, Sh m => Nat.eqb n m
  | Lst, Lst => true
  | _, _ => false
  end.
Lemma keq_eq : forall a b, keq a b = true -> a = b.
Proof. intros [|n|] [|m|] H; simpl in H; try discriminate; auto. apply Nat.eqb_eq in H. now subst. Qed.

Definition leL (a b : Level) : bool :=
  match a, b with
  | Bot, _ => true
  | _, Any => true
  | K x, K y => keq x y
  | C, C => true
  | _, _ => false
  end.
Definition joinL (a b : Level) : Level :=
  match a, b with
  | Bot, x => x
  | x, Bot => x
  | K x, K y => if keq x y then K x else Any
  | C, C => C
  | _, _ => Any
  end.

Definition Abs := list (string * Level).
Fixpoint lv (a : Abs) (x : string) : Level :=
  match a with
  | [] => Bot
  | (k, v) :: r => if String.eqb k x then v else lv r x
  end.
Fixpoint setL (a : Abs) (x : string) (v : Level) : Abs :=
  match a with
  | [] => [(x, v)]
  | (k, u) :: r => if String.eqb k x then (k, v) :: r else (k, u) :: setL r x v
  end.
Definition demoteL (v : Level) : Level := match v with K Deep => K (Sh 0) | x => x end.
Definition demote (a : Abs) : Abs := map (fun kv => (fst kv, demoteL (snd kv))) a.

Definition mixed (a b : Level) : bool :=
  match a, b with
  | K Deep, K (Sh 0) => true
  | K (Sh 0), K Deep => true
  | _, _ => false
  end.
Definition keys (a : Abs) : list string := map fst a.
Fixpoint joinInto (ks : list string) (a b : Abs) : Abs :=
  match ks with
  | [] => a
  | k :: r => joinInto r (setL a k (joinL (lv a k) (lv b k))) b
  end.
(* States with the same names in the same order are compared name by name;
   from the first difference on, by looking the names up. *)
Fixpoint zmixed (a b : Abs) : bool :=
  match a, b with
  | (k, u) :: r, (m, v) :: s =>
      if String.eqb k m then mixed u v || zmixed r s
      else existsb (fun k => mixed (lv a k) (lv b k)) (keys b)
  | _, _ => false
  end.
Fixpoint zjoin (a b : Abs) : Abs :=
  match a, b with
  | [], _ => b
  | _, [] => a
  | (k, u) :: r, (m, v) :: s =>
      if String.eqb k m then (k, joinL u v) :: zjoin r s
      else joinInto (keys b) a b
  end.
Definition join (a b : Abs) : Abs :=
  if zmixed a b then zjoin (demote a) (demote b) else zjoin a b.
Fixpoint leP (a b : Abs) : bool :=
  match a, b with
  | [], _ => true
  | (k, u) :: r, (m, v) :: s =>
      if String.eqb k m then leL u v && leP r s
      else forallb (fun k => leL (lv a k) (lv b k)) (keys a)
  | _, [] => forallb (fun k => leL (lv a k) (lv b k)) (keys a)
  end.
Definition leb (a b : Abs) : bool := leP a b || leP (demote a) b.

Definition content (v : Level) : Level :=
  match v with
  | Bot => Bot
  | K Deep => K Deep
  | K (Sh 0) => Any
  | K (Sh (S n)) => K (Sh n)
  | K Lst => C
  | C => C
  | Any => Any
  end.
Definition fits (k : Kind) (v : Level) : bool :=
  match v with
  | Bot => true
  | _ => match k with
         | Deep => match v with K Deep => true | _ => false end
         | Sh 0 => true
         | Sh (S n) => match v with K (Sh m) => Nat.eqb n m | _ => false end
         | Lst => match v with C => true | _ => false end
         end
  end.
Definition into (a : Abs) (y : string) (v : Level) : option Abs :=
  match lv a y with
  | Any | C => None
  | Bot => Some a
  | K k => if fits k v then Some a
           else match k with Deep => Some (demote a) | _ => None end
  end.

(* What is checked depends on three things: whether shared records may be
   written without their lock (ul), which statements are known to write a
   cached object (copies), and which results of the API are never written
   and may become part of a cached object (fz). *)
Section Checker.
Variable ul : bool.
Variable copies : Prim -> bool.
Variable fz : string -> bool.

Definition hint (n : nat) : Kind := if Nat.eqb n 7 then Lst else Sh n.
Definition cached (v : Level) : bool := match v with Bot | C => true | _ => false end.
Definition cchk (p : Prim) (a : Abs) : option Abs :=
  match p with
  | Fields y _ x _ => if cached (lv a y) && cached (lv a x) then Some a else None
  | Put y _ x => if cached (lv a y) && cached (lv a x) then Some a else None
  | Data y _ => if cached (lv a y) then Some a else None
  | _ => None
  end.
Definition pchk (p : Prim) (a : Abs) : option Abs :=
  if copies p then cchk p a else
  match p with
  | New x => Some (setL a x (if fz x then C else K Deep))
  | DeepCopy x y => Some (setL a x (K Deep))
  | Make n x => Some (setL a x (K (hint n)))
  | Cached x => Some (setL a x C)
  | Global x l => Some (setL a x Any)
  | Let x y => Some (setL a x (lv a y))
  | Get x y f => Some (setL a x (content (lv a y)))
  | Elem x y => Some (setL a x (content (lv a y)))
  | Put y f x => into a y (lv a x)
  | Data y f => into a y Bot
  | Drop y f => into a y Bot
  | Fields y p x q => into a y (content (lv a x))
  | Append z y x =>
      match lv a y with
      | Bot => Some (setL a z (K (Sh 0)))
      | _ => match into a y (lv a x) with
             | Some b => Some (setL b z (lv b y))
             | None => None
             end
      end
  | Send y => Some a
  | SetShared l f => if ul && Nat.eqb l 0 then Some a else None
  | LockedSet l f => if Nat.eqb l 2 then Some a else None
  end.

Definition turns (f : Abs -> option Abs) : nat -> Abs -> option Abs :=
  fix go (n : nat) (b : Abs) {struct n} : option Abs :=
    match f b with
    | Some c => if leb c b then Some b
                else match n with 0 => None | S m => go m (join b c) end
    | None => None
    end.

Fixpoint chk (p : Prog) (a : Abs) {struct p} : option Abs :=
  match p with
  | Skip => Some a
  | Do q => pchk q a
  | Seq q r =>
      match chk q a with
      | Some b => match chk r b with Some c => Some (join b c) | None => None end
      | None => None
      end
  | Alt q r =>
      match chk q a, chk r a with
      | Some b, Some c => Some (join b c)
      | _, _ => None
      end
  | Loop q => turns (chk q) 8 a
  end.

Definition checked (ps : list Prog) : bool :=
  forallb (fun p => match chk p [] with Some _ => true | None => false end) ps.

(* ---- facts about abstract states ---- *)
Lemma lv_setL : forall a x v y, lv (setL a x v) y = if String.eqb x y then v else lv a y.
Proof.
  induction a as [|[k u] r IH]; intros x v y; simpl.
  - destruct (String.eqb x y); reflexivity.
  - destruct (String.eqb k x) eqn:E; simpl.
    + apply String.eqb_eq in E; subst k.
      destruct (String.eqb x y) eqn:E2; reflexivity.
    + rewrite IH. destruct (String.eqb k y) eqn:E2; auto.
      apply String.eqb_eq in E2; subst k.
      rewrite String.eqb_sym, E. reflexivity.
Qed.
Lemma lv_demote : forall a x, lv (demote a) x = demoteL (lv a x).
Proof.
  induction a as [|[k u] r IH]; intros x; simpl; auto.
  destruct (String.eqb k x); auto.
Qed.
Lemma lv_notin : forall a x, ~ In x (keys a) -> lv a x = Bot.
Proof.
  induction a as [|[k u] r IH]; intros x H; simpl in *; auto.
  destruct (String.eqb k x) eqn:E.
  - apply String.eqb_eq in E; subst; tauto.
  - apply IH; tauto.
Qed.
Definition Le (a b : Abs) : Prop := forall x, leL (lv a x) (lv b x) = true.
Lemma all_Le : forall a b, forallb (fun k => leL (lv a k) (lv b k)) (keys a) = true -> Le a b.
Proof.
  intros a b H x. destruct (in_dec string_dec x (keys a)) as [I|N].
  - rewrite forallb_forall in H. auto.
  - rewrite (lv_notin _ _ N). reflexivity.
Qed.
Lemma leP_Le : forall a b, leP a b = true -> Le a b.
Proof.
  induction a as [|[k u] r IH]; intros b H; [intros x; reflexivity|].
  destruct b as [|[m v] s]; [apply all_Le; exact H|].
  cbn [leP] in H. destruct (String.eqb k m) eqn:E; [|apply all_Le; exact H].
  apply String.eqb_eq in E. subst m. apply andb_true_iff in H. destruct H as [H1 H2].
  intros x. cbn [lv]. destruct (String.eqb k x); auto. now apply IH.
Qed.
Definition LE (a b : Abs) : Prop := Le a b \/ Le (demote a) b.
Lemma leb_LE : forall a b, leb a b = true -> LE a b.
Proof.
  intros a b H. unfold leb in H. apply orb_true_iff in H. destruct H as [H|H].
  - left; now apply leP_Le.
  - right; now apply leP_Le.
Qed.
Lemma keq_refl : forall k, keq k k = true.
Proof. intros [|n|]; simpl; auto using Nat.eqb_refl. Qed.
Lemma leL_refl : forall v, leL v v = true.
Proof. intros [|k| |]; simpl; auto using keq_refl. Qed.
Lemma LE_refl : forall a, LE a a.
Proof. intros a; left; intros x; apply leL_refl. Qed.
Lemma joinL_l : forall a b, leL a (joinL a b) = true.
Proof. intros [|k| |] [|m| |]; simpl; auto using keq_refl. destruct (keq k m); simpl; auto using keq_refl. Qed.
Lemma joinL_r : forall a b, leL b (joinL a b) = true.
Proof.
  intros [|k| |] [|m| |]; simpl; auto using keq_refl. destruct (keq k m) eqn:E; simpl; auto.
  apply keq_eq in E; subst; apply keq_refl.
Qed.
Lemma joinL_idem : forall a b, joinL (joinL a b) b = joinL a b.
Proof.
  intros [|k| |] [|m| |]; simpl; auto; try (rewrite keq_refl; auto).
  destruct (keq k m) eqn:E; simpl; auto. now rewrite E.
Qed.
Lemma lv_joinInto : forall ks a b x,
  lv (joinInto ks a b) x = if existsb (String.eqb x) ks then joinL (lv a x) (lv b x) else lv a x.
Proof.
  induction ks as [|k r IH]; intros a b x; simpl; auto.
  rewrite IH, lv_setL, (String.eqb_sym k x).
  destruct (String.eqb x k) eqn:E; simpl; auto.
  apply String.eqb_eq in E; subst k.
  destruct (existsb (String.eqb x) r); auto using joinL_idem.
Qed.
Lemma keys_demote : forall a, keys (demote a) = keys a.
Proof. intros a; unfold keys, demote; rewrite map_map; apply map_ext; intros [k v]; reflexivity. Qed.
Lemma joinL_bot : forall v, joinL v Bot = v.
Proof. intros [|k| |]; reflexivity. Qed.
Lemma lv_joinAll : forall a b x, lv (joinInto (keys b) a b) x = joinL (lv a x) (lv b x).
Proof.
  intros a b x; rewrite lv_joinInto. destruct (existsb (String.eqb x) (keys b)) eqn:E; auto.
  rewrite (lv_notin b), joinL_bot; auto. intros I.
  assert (existsb (String.eqb x) (keys b) = true); [|congruence].
  apply existsb_exists. exists x; split; auto using String.eqb_refl.
Qed.
Lemma lv_zjoin : forall a b x, lv (zjoin a b) x = joinL (lv a x) (lv b x).
Proof.
  induction a as [|[k u] r IH]; intros b x; [reflexivity|].
  destruct b as [|[m v] s]; [cbn [zjoin]; symmetry; apply joinL_bot|].
  cbn [zjoin]. destruct (String.eqb k m) eqn:E; [|apply lv_joinAll].
  apply String.eqb_eq in E. subst m. cbn [lv]. destruct (String.eqb k x); auto.
Qed.
Lemma join_l : forall a b, LE a (join a b).
Proof.
  intros a b; unfold join; destruct (zmixed _ _); [right|left]; intros x; rewrite lv_zjoin; apply joinL_l.
Qed.
Lemma join_r : forall a b, LE b (join a b).
Proof.
  intros a b; unfold join; destruct (zmixed _ _); [right|left]; intros x; rewrite lv_zjoin; apply joinL_r.
Qed.

(* ---- the judgement behind the checker ---- *)
Inductive typed : Abs -> Prog -> Abs -> Prop :=
| T_skip : forall a, typed a Skip a
| T_do : forall a p b, pchk p a = Some b -> typed a (Do p) b
| T_seq : forall a p b q c, typed a p b -> typed b q c -> LE b c -> typed a (Seq p q) c
| T_alt : forall a p q b, typed a p b -> typed a q b -> typed a (Alt p q) b
| T_loop : forall a p, typed a p a -> typed a (Loop p) a
| T_weak : forall a a' p b' b, LE a a' -> typed a' p b' -> LE b' b -> typed a p b.

Lemma chk_typed : forall p a b, chk p a = Some b -> typed a p b.
Proof.
  induction p as [|q|p IHp q IHq|p IHp q IHq|p IHp]; intros a b H; cbn [chk] in H.
  - inversion H; subst; constructor.
  - now constructor.
  - destruct (chk p a) as [b1|] eqn:E1; [|discriminate].
    destruct (chk q b1) as [c1|] eqn:E2; [|discriminate].
    inversion H; subst.
    apply T_seq with b1; auto.
    + apply T_weak with b1 c1; auto using LE_refl, join_r.
    + apply join_l.
  - destruct (chk p a) as [b1|] eqn:E1; [|discriminate].
    destruct (chk q a) as [c1|] eqn:E2; [|discriminate].
    inversion H; subst.
    apply T_alt.
    + apply T_weak with a b1; auto using LE_refl, join_l.
    + apply T_weak with a c1; auto using LE_refl, join_r.
  - change (turns (chk p) 8 a = Some b) in H.
    revert H. generalize 8 as n. intros n. revert a b.
    induction n as [|n IHn]; intros a b H; simpl in H.
    + destruct (chk p a) as [c|] eqn:E; [|discriminate].
      destruct (leb c a) eqn:L; [|discriminate]. inversion H; subst.
      apply T_loop. apply T_weak with b c; auto using LE_refl, leb_LE.
    + destruct (chk p a) as [c|] eqn:E; [|discriminate].
      destruct (leb c a) eqn:L.
      * inversion H; subst. apply T_loop. apply T_weak with b c; auto using LE_refl, leb_LE.
      * apply IHn in H. apply T_weak with (join a c) b; auto using LE_refl, join_l.
Qed.

Fixpoint ktyped (a : Abs) (k : Kont) : Prop :=
  match k with
  | [] => True
  | p :: r => exists b, typed a p b /\ ktyped b r
  end.
Lemma ktyped_LE : forall k a b, LE a b -> ktyped b k -> ktyped a k.
Proof.
  intros [|p r] a b L H; simpl in *; auto.
  destruct H as [c [T KK]]. exists c; split; auto. apply T_weak with b c; auto using LE_refl.
Qed.

(* ---- the memory ---- *)
Definition vals (n : Node) : list Val := map snd n.
Definition at_o (h : Heap) (l : nat) (o : Owner) : Prop := exists n, nth_error h l = Some (o, n).
Definition mine (i : nat) (o : Owner) : Prop := o = Cache \/ o = Common \/ o = Of i.

Definition below (h : Heap) (o : Owner) (l : nat) : Prop :=
  match o with
  | Cache => at_o h l Cache
  | Common => False
  | Of i => exists o', mine i o' /\ at_o h l o'
  end.
Definition heapOk (h : Heap) : Prop :=
  forall l o n, nth_error h l = Some (o, n) -> forall m, In (VLoc m) (vals n) -> below h o m.

Definition kindOk (h : Heap) (i : nat) (kd : nat -> Kind) (k : Kind) (m : nat) : Prop :=
  match k with
  | Deep => at_o h m (Of i) /\ kd m = Deep
  | Sh 0 => True
  | Sh (S j) => at_o h m (Of i) /\ kd m = Sh j
  | Lst => at_o h m Cache
  end.
Definition good (h : Heap) (i : nat) (kd : nat -> Kind) : Prop :=
  forall l n, nth_error h l = Some (Of i, n) -> forall m, In (VLoc m) (vals n) -> kindOk h i kd (kd l) m.

Definition vok (h : Heap) (i : nat) (kd : nat -> Kind) (v : Level) (x : Val) : Prop :=
  match x with
  | VLoc m =>
      match v with
      | Bot => False
      | K k => at_o h m (Of i) /\ kd m = k
      | C => at_o h m Cache
      | Any => exists o, mine i o /\ at_o h m o
      end
  | _ => True
  end.
Definition envOk (h : Heap) (i : nat) (kd : nat -> Kind) (a : Abs) (e : Env) : Prop :=
  forall x, vok h i kd (lv a x) (e x).

Definition commonOk (h : Heap) : Prop :=
  forall l c, nth_error shared0 l = Some c -> at_o h l Common.

(* h' is h with cells of others, shared scalars and new cells changed. *)
Definition frame (j : nat) (h h' : Heap) : Prop :=
  (forall l o n, nth_error h l = Some (o, n) -> at_o h' l o) /\
  (forall l n, nth_error h l = Some (Of j, n) -> nth_error h' l = Some (Of j, n)) /\
  (forall l n, nth_error h' l = Some (Of j, n) -> nth_error h l = Some (Of j, n)).

Lemma vok_le : forall h i kd u v x, leL u v = true -> vok h i kd u x -> vok h i kd v x.
Proof.
  intros h i kd u v [|m|d] L H; simpl in *; auto.
  destruct u as [|k| |], v as [|k'| |]; simpl in *; try discriminate; try tauto.
  - apply keq_eq in L; subst; auto.
  - destruct H as [A _]. exists (Of i); split; auto. now right; right.
  - exists Cache; split; auto. now left.
Qed.
Lemma envOk_Le : forall h i kd a b e, Le a b -> envOk h i kd a e -> envOk h i kd b e.
Proof. intros h i kd a b e L H x. eapply vok_le; eauto. Qed.

Definition demoteK (kd : nat -> Kind) : nat -> Kind :=
  fun l => match kd l with Deep => Sh 0 | k => k end.
Lemma demote_ok : forall h i kd a e, good h i kd -> envOk h i kd a e ->
  good h i (demoteK kd) /\ envOk h i (demoteK kd) (demote a) e.
Proof.
  intros h i kd a e G E; split.
  - intros l n N m I. specialize (G l n N m I). unfold demoteK.
    destruct (kd l) as [|[|j]|]; simpl in *; auto.
    destruct G as [A B]; split; auto. now rewrite B.
  - intros x. specialize (E x). rewrite lv_demote. destruct (e x) as [|m|d]; simpl in *; auto.
    destruct (lv a x) as [|[|j|]| |]; simpl in *; auto.
    + destruct E as [A B]; split; auto. unfold demoteK; now rewrite B.
    + destruct E as [A B]; split; auto. unfold demoteK; now rewrite B.
    + destruct E as [A B]; split; auto. unfold demoteK; now rewrite B.
Qed.
Lemma LE_ok : forall h i kd a b e, LE a b -> good h i kd -> envOk h i kd a e ->
  exists kd', good h i kd' /\ envOk h i kd' b e.
Proof.
  intros h i kd a b e [L|L] G E.
  - exists kd; split; auto. eapply envOk_Le; eauto.
  - destruct (demote_ok _ _ _ _ _ G E) as [G' E'].
    exists (demoteK kd); split; auto. eapply envOk_Le; eauto.
Qed.

Lemma frame_ok : forall h h' j kd a e, frame j h h' -> good h j kd -> envOk h j kd a e ->
  good h' j kd /\ envOk h' j kd a e.
Proof.
  intros h h' j kd a e [F1 [F2 F3]] G E. split.
  - intros l n N m I. apply F3 in N. specialize (G l n N m I).
    unfold kindOk in *. destruct (kd l) as [|[|q]|]; auto.
    + destruct G as [[n' A] B]; split; auto. exists n'; auto.
    + destruct G as [[n' A] B]; split; auto. exists n'; auto.
    + destruct G as [n' A]. eapply F1; eauto.
  - intros x. specialize (E x). destruct (e x) as [|m|d]; simpl in *; auto.
    destruct (lv a x) as [|k| |]; auto.
    + destruct E as [[n A] B]; split; auto. exists n; auto.
    + destruct E as [n A]. eapply F1; eauto.
    + destruct E as [o [M [n A]]]. exists o; split; auto. eapply F1; eauto.
Qed.

(* ---- lists ---- *)
Lemma nth_app_l : forall (h g : Heap) l c, nth_error h l = Some c -> nth_error (h ++ g)%list l = Some c.
Proof. intros h g l c H. rewrite nth_error_app1; auto. apply nth_error_Some; congruence. Qed.
Lemma nth_app_inv : forall (h g : Heap) l c, nth_error (h ++ g)%list l = Some c ->
  nth_error h l = Some c \/ (List.length h <= l /\ nth_error g (l - List.length h) = Some c).
Proof.
  intros h g l c H. destruct (Nat.lt_ge_cases l (List.length h)) as [L|L].
  - rewrite nth_error_app1 in H; auto.
  - rewrite nth_error_app2 in H; auto.
Qed.
Lemma at_app : forall h g l o, at_o h l o -> at_o (h ++ g)%list l o.
Proof. intros h g l o [n H]; exists n; now apply nth_app_l. Qed.
Lemma nth_owned : forall o b l c, nth_error (owned o b) l = Some c -> exists n, c = (o, n) /\ In n b.
Proof.
  intros o b l c H. unfold owned in H. rewrite nth_error_map in H.
  destruct (nth_error b l) as [n|] eqn:E; simpl in H; inversion H; subst.
  exists n; split; auto. eapply nth_error_In; eauto.
Qed.
Lemma at_owned : forall h o b l, List.length h <= l -> l < List.length h + List.length b ->
  at_o (h ++ owned o b)%list l o.
Proof.
  intros h o b l A B. unfold at_o. rewrite nth_error_app2 by auto.
  unfold owned. rewrite nth_error_map.
  destruct (nth_error b (l - List.length h)) as [n|] eqn:E; simpl; eauto.
  apply nth_error_None in E; lia.
Qed.
Lemma closed_in : forall base b n m, closed base b = true -> In n b -> In (VLoc m) (vals n) ->
  base <= m /\ m < base + List.length b.
Proof.
  intros base b n m C I V. unfold closed in C. rewrite forallb_forall in C.
  specialize (C n I). rewrite forallb_forall in C.
  unfold vals in V. apply in_map_iff in V. destruct V as [[k v] [E V]]. simpl in E; subst v.
  specialize (C _ V). simpl in C. apply andb_true_iff in C. destruct C as [A B].
  apply Nat.leb_le in A. apply Nat.ltb_lt in B. lia.
Qed.

Lemma store_same : forall h l o n n', nth_error h l = Some (o, n) -> nth_error (store h l n') l = Some (o, n').
Proof.
  induction h as [|[o0 n0] r IH]; intros [|l] o n n' H; simpl in *; try discriminate.
  - now inversion H; subst.
  - eapply IH; eauto.
Qed.
Lemma store_other : forall h l n' m, l <> m -> nth_error (store h l n') m = nth_error h m.
Proof.
  induction h as [|[o0 n0] r IH]; intros [|l] n' [|m] H; simpl in *; auto; try congruence.
Qed.
Lemma store_inv : forall h l o n n' m c, nth_error h l = Some (o, n) ->
  nth_error (store h l n') m = Some c -> (m = l /\ c = (o, n')) \/ (m <> l /\ nth_error h m = Some c).
Proof.
  intros h l o n n' m c H S. destruct (Nat.eq_dec m l) as [E|E].
  - subst m. rewrite (store_same _ _ _ _ n' H) in S. left; split; congruence.
  - rewrite store_other in S by auto. now right.
Qed.
Lemma at_store : forall h l n' m o, at_o h m o -> at_o (store h l n') m o.
Proof.
  intros h l n' m o [n H]. destruct (Nat.eq_dec l m) as [E|E].
  - subst m. exists n'. eapply store_same; eauto.
  - exists n. now rewrite store_other.
Qed.

Lemma look_in : forall n f, look n f = VNil \/ In (look n f) (vals n).
Proof.
  induction n as [|[k v] r IH]; intros f; simpl; auto.
  destruct (String.eqb k f); auto. destruct (IH f); auto.
Qed.
Lemma without_in : forall n f v, In v (vals (without n f)) -> In v (vals n).
Proof.
  induction n as [|[k u] r IH]; intros f v H; simpl in *; auto.
  destruct (String.eqb k f); simpl in *; firstorder.
Qed.
Lemma put_in : forall n f x v, In v (vals (put n f x)) -> v = x \/ In v (vals n).
Proof. intros n f x v [H|H]; auto. right. eapply without_in; eauto. Qed.
Lemma copied_in : forall ny p nx q v, In v (vals (copied ny p nx q)) -> In v (vals ny) \/ In v (vals nx).
Proof.
  intros ny p nx q v H. unfold copied, vals in *. rewrite map_app in H.
  apply in_app_iff in H. destruct H as [H|H].
  - right. rewrite map_map in H. apply in_map_iff in H. destruct H as [kv [E I]].
    apply filter_In in I. apply in_map_iff. exists kv; split; [now rewrite <- E|tauto].
  - left. apply in_map_iff in H. destruct H as [kv [E I]]. apply filter_In in I.
    apply in_map_iff. exists kv; tauto.
Qed.
Lemma veq_eq : forall a b, veq a b = true -> a = b.
Proof.
  intros [|l|n] [|k|m] H; simpl in H; try discriminate; auto; apply Nat.eqb_eq in H; congruence.
Qed.

(* Everything on a way down from a value of worker i may be seen by i. *)
Definition seen (h : Heap) (i : nat) (v : Val) : Prop :=
  match v with VLoc m => exists o, mine i o /\ at_o h m o | _ => True end.
Lemma vok_seen : forall h i kd u v, vok h i kd u v -> seen h i v.
Proof.
  intros h i kd u [|m|d] H; simpl in *; auto.
  destruct u as [|k| |]; try tauto.
  - destruct H as [A _]. exists (Of i); split; auto. now right; right.
  - exists Cache; split; auto. now left.
Qed.
Lemma below_seen : forall h i o m, mine i o -> below h o m -> seen h i (VLoc m).
Proof.
  intros h i o m M B. simpl. destruct M as [E|[E|E]]; subst o; simpl in B.
  - exists Cache; split; auto. now left.
  - tauto.
  - auto.
Qed.
Lemma chain_seen : forall ls h i vs, heapOk h -> (forall v, In v vs -> seen h i v) ->
  chain h vs ls = true -> forall l, In l ls -> exists o, mine i o /\ at_o h l o.
Proof.
  induction ls as [|l r IH]; intros h i vs HO V C m I; simpl in *; try tauto.
  apply andb_true_iff in C. destruct C as [C1 C2].
  apply existsb_exists in C1. destruct C1 as [v [I1 E]].
  apply veq_eq in E. subst v.
  assert (S1 : exists o, mine i o /\ at_o h l o) by apply (V _ I1).
  destruct I as [I|I]; [subst m; auto|].
  destruct S1 as [o [M [n N]]].
  rewrite N in C2. apply (IH h i (map snd n)); auto.
  intros v Iv. destruct v as [|q|d]; simpl; auto.
  apply (below_seen h i o q M). apply (HO l o n N). auto.
Qed.

(* ---- the three ways a step changes the memory ---- *)
Definition kept (h h' : Heap) : Prop :=
  forall l n, nth_error h l = Some (Cache, n) -> nth_error h' l = Some (Cache, n).

Lemma below_mono : forall h h' o m, (forall l o' , at_o h l o' -> at_o h' l o') -> below h o m -> below h' o m.
Proof.
  intros h h' [| |i] m F B; simpl in *; auto.
  destruct B as [o' [M A]]. exists o'; auto.
Qed.
Lemma kindOk_mono : forall h h' i kd kd' k m, (forall l o' , at_o h l o' -> at_o h' l o') ->
  (forall l, at_o h l (Of i) -> kd' l = kd l) -> kindOk h i kd k m -> kindOk h' i kd' k m.
Proof.
  intros h h' i kd kd' [|[|q]|] m F E B; simpl in *; auto.
  - destruct B as [A B]; split; auto. now rewrite E.
  - destruct B as [A B]; split; auto. now rewrite E.
Qed.
Lemma vok_mono : forall h h' i kd kd' u v, (forall l o' , at_o h l o' -> at_o h' l o') ->
  (forall l, at_o h l (Of i) -> kd' l = kd l) -> vok h i kd u v -> vok h' i kd' u v.
Proof.
  intros h h' i kd kd' u [|m|d] F E V; simpl in *; auto.
  destruct u as [|k| |]; auto.
  - destruct V as [A B]; split; auto. now rewrite E.
  - destruct V as [o [M A]]. exists o; auto.
Qed.

(* 1. new cells of worker i *)
Definition newK (h : Heap) (kd : nat -> Kind) (k : Kind) : nat -> Kind :=
  fun l => if Nat.ltb l (List.length h) then kd l else k.
Lemma newK_old : forall h kd k l o, at_o h l o -> newK h kd k l = kd l.
Proof.
  intros h kd k l o [n H]. unfold newK.
  assert (l < List.length h) by (apply nth_error_Some; congruence).
  apply Nat.ltb_lt in H0. now rewrite H0.
Qed.
Lemma newK_new : forall h kd k l, List.length h <= l -> newK h kd k l = k.
Proof. intros h kd k l H. unfold newK. apply Nat.ltb_ge in H. now rewrite H. Qed.

Lemma ext_ok : forall h g i kd k,
  heapOk h -> commonOk h -> good h i kd ->
  (forall c, In c g -> fst c = Of i) ->
  (forall c m, In c g -> In (VLoc m) (vals (snd c)) ->
     below (h ++ g)%list (Of i) m /\ kindOk (h ++ g)%list i (newK h kd k) k m) ->
  heapOk (h ++ g)%list /\ commonOk (h ++ g)%list /\ good (h ++ g)%list i (newK h kd k) /\
  (forall j, j <> i -> frame j h (h ++ g)%list) /\ kept h (h ++ g)%list /\
  (forall u v, vok h i kd u v -> vok (h ++ g)%list i (newK h kd k) u v).
Proof.
  intros h g i kd k HO CO G O P.
  assert (AP : forall l o, at_o h l o -> at_o (h ++ g)%list l o) by (intros; now apply at_app).
  assert (NK : forall l, at_o h l (Of i) -> newK h kd k l = kd l) by (intros; eapply newK_old; eauto).
  repeat split.
  - intros l o n N m I. apply nth_app_inv in N. destruct N as [N|[L N]].
    + apply (below_mono h); auto. eapply HO; eauto.
    + apply nth_error_In in N. assert (o = Of i) by (apply (O (o, n) N)). subst o.
      now apply (P (Of i, n)).
  - intros l c N. apply AP. eapply CO; eauto.
  - intros l n N m I. apply nth_app_inv in N. destruct N as [N|[L N]].
    + assert (A : at_o h l (Of i)) by (exists n; auto).
      rewrite (NK _ A). eapply kindOk_mono; eauto.
    + apply nth_error_In in N. rewrite newK_new by auto. now apply (P (Of i, n)).
  - intros l o n N. apply AP. exists n; auto.
  - intros l n N. now apply nth_app_l.
  - intros l n N. apply nth_app_inv in N. destruct N as [N|[L N]]; auto.
    apply nth_error_In in N. apply O in N. simpl in N. congruence.
  - intros l n N. now apply nth_app_l.
  - intros u v V. eapply vok_mono; eauto.
Qed.

(* 2. a cell of worker i written *)
Lemma own_ok : forall h i kd l n n',
  heapOk h -> commonOk h -> good h i kd -> nth_error h l = Some (Of i, n) ->
  (forall m, In (VLoc m) (vals n') -> below h (Of i) m /\ kindOk h i kd (kd l) m) ->
  heapOk (store h l n') /\ commonOk (store h l n') /\ good (store h l n') i kd /\
  (forall j, j <> i -> frame j h (store h l n')) /\ kept h (store h l n') /\
  (forall u v, vok h i kd u v -> vok (store h l n') i kd u v).
Proof.
  intros h i kd l n n' HO CO G N0 P.
  assert (AP : forall m o, at_o h m o -> at_o (store h l n') m o) by (intros; now apply at_store).
  repeat split.
  - intros m o nn N q I. apply (below_mono h); auto.
    destruct (store_inv _ _ _ _ _ _ _ N0 N) as [[E C]|[E C]].
    + inversion C; subst. now apply P.
    + eapply HO; eauto.
  - intros m c N. apply AP. eapply CO; eauto.
  - intros m nn N q I. eapply kindOk_mono; [exact AP| reflexivity|].
    destruct (store_inv _ _ _ _ _ _ _ N0 N) as [[E C]|[E C]].
    + inversion C; subst. now apply P.
    + eapply G; eauto.
  - intros m o nn N. apply AP. exists nn; auto.
  - intros m nn N. rewrite store_other; auto. intros E; subst m. congruence.
  - intros m nn N. destruct (store_inv _ _ _ _ _ _ _ N0 N) as [[E C]|[E C]]; auto.
    inversion C; congruence.
  - intros m nn N. rewrite store_other; auto. intros E; subst m. congruence.
  - intros u v V. eapply vok_mono; eauto.
Qed.

(* 3. a scalar of a shared record written *)
Lemma common_ok : forall h l n n',
  heapOk h -> commonOk h -> nth_error h l = Some (Common, n) ->
  (forall m, ~ In (VLoc m) (vals n')) ->
  heapOk (store h l n') /\ commonOk (store h l n') /\
  (forall j, frame j h (store h l n')) /\ kept h (store h l n').
Proof.
  intros h l n n' HO CO N0 P.
  assert (AP : forall m o, at_o h m o -> at_o (store h l n') m o) by (intros; now apply at_store).
  repeat split.
  - intros m o nn N q I. apply (below_mono h); auto.
    destruct (store_inv _ _ _ _ _ _ _ N0 N) as [[E C]|[E C]].
    + inversion C; subst. exfalso. eapply P; eauto.
    + eapply HO; eauto.
  - intros m c N. apply AP. eapply CO; eauto.
  - intros m o nn N. apply AP. exists nn; auto.
  - intros m nn N. rewrite store_other; auto. intros E; subst m. congruence.
  - intros m nn N. destruct (store_inv _ _ _ _ _ _ _ N0 N) as [[E C]|[E C]]; auto. congruence.
  - intros m nn N. rewrite store_other; auto. intros E; subst m. congruence.
Qed.

(* ---- one statement ---- *)
Definition evOk (cp : bool) (h : Heap) (i : nat) (ev : Event) : Prop :=
  match ev with
  | Read j l => j = i /\ exists o, mine i o /\ at_o h l o
  | Wrote j l => j = i /\ (at_o h l (Of i) \/ (ul = true /\ l = 0 /\ at_o h l Common) \/
                               (cp = true /\ at_o h l Cache))
  | Locked j l => j = i /\ l = 2 /\ at_o h l Common
  end.

Definition stepOk (cp : bool) (h : Heap) (i : nat) (h' : Heap) (e' : Env) (evs : list Event) (b : Abs) : Prop :=
  heapOk h' /\ commonOk h' /\ (exists kd, good h' i kd /\ envOk h' i kd b e') /\
  (forall j, j <> i -> frame j h h') /\ (forall ev, In ev evs -> evOk cp h i ev).

Lemma frame_refl : forall j h, frame j h h.
Proof. intros j h; repeat split; auto. intros l o n H; exists n; auto. Qed.

Lemma envOk_set : forall h i kd a e x u v,
  envOk h i kd a e -> vok h i kd u v -> envOk h i kd (setL a x u) (set e x v).
Proof.
  intros h i kd a e x u v E V y. rewrite lv_setL. unfold set. destruct (String.eqb x y); auto.
Qed.

Lemma content_ok : forall h i kd u l o n v, heapOk h -> good h i kd ->
  vok h i kd u (VLoc l) -> nth_error h l = Some (o, n) -> In v (vals n) -> vok h i kd (content u) v.
Proof.
  intros h i kd u l o n v HO G V N I. destruct v as [|m|d]; simpl; auto.
  destruct u as [|k| |]; simpl in V; try tauto.
  - destruct V as [[n' A] B]. rewrite N in A. inversion A; subst o n'.
    specialize (G l n N m I). rewrite B in G.
    destruct k as [|[|q]|]; simpl in *; auto.
    apply (HO l (Of i) n N m I).
  - destruct V as [n' A]. rewrite N in A. inversion A; subst o n'. apply (HO l Cache n N m I).
  - destruct V as [o' [M [n' A]]]. rewrite N in A. inversion A; subst o' n'.
    simpl. eapply below_seen; eauto.
Qed.

Lemma fits_ok : forall h i kd k u v m, fits k u = true -> vok h i kd u v -> v = VLoc m ->
  kindOk h i kd k m.
Proof.
  intros h i kd k u v m F V E; subst v. simpl in V.
  destruct u as [|k'| |]; try tauto.
  - destruct k as [|[|q]|]; simpl in *; auto.
    + destruct k' as [|q|]; try discriminate. auto.
    + destruct k' as [|q'|]; try discriminate. apply Nat.eqb_eq in F. subst. auto.
    + discriminate.
  - destruct k as [|[|q]|]; simpl in *; auto; discriminate.
  - destruct k as [|[|q]|]; simpl in *; auto; discriminate.
Qed.
Lemma seen_below : forall h i m, seen h i (VLoc m) -> below h (Of i) m.
Proof. auto. Qed.

(* Writing values of level u into the cell y points to. *)
Lemma into_ok : forall h i kd a e y u b l,
  heapOk h -> commonOk h -> good h i kd -> envOk h i kd a e ->
  into a y u = Some b -> e y = VLoc l ->
  exists kd' n, good h i kd' /\ envOk h i kd' b e /\ nth_error h l = Some (Of i, n) /\
    lv b y = K (kd' l) /\
    (forall v m, vok h i kd u v -> v = VLoc m -> below h (Of i) m /\ kindOk h i kd' (kd' l) m) /\
    (forall m, In (VLoc m) (vals n) -> below h (Of i) m /\ kindOk h i kd' (kd' l) m).
Proof.
  intros h i kd a e y u b l HO CO G E I Y. unfold into in I.
  pose proof (E y) as V. rewrite Y in V. simpl in V.
  destruct (lv a y) as [|k| |] eqn:LY; try tauto; try discriminate.
  destruct V as [[n N] KD].
  destruct (fits k u) eqn:F.
  - inversion I; subst b. exists kd, n. repeat split; auto.
    + rewrite LY, KD; auto.
    + subst v. eapply seen_below, vok_seen; eauto.
    + rewrite KD. eapply fits_ok; eauto.
    + eapply HO in N; eauto.
    + eapply G in N; eauto.
  - destruct k as [|q|]; try discriminate. inversion I; subst b.
    destruct (demote_ok _ _ _ _ _ G E) as [G' E'].
    assert (KD' : demoteK kd l = Sh 0) by (unfold demoteK; now rewrite KD).
    exists (demoteK kd), n. repeat split; auto.
    + rewrite lv_demote, LY, KD'. reflexivity.
    + subst v. eapply seen_below, vok_seen; eauto.
    + rewrite KD'. simpl; auto.
    + eapply HO in N; eauto.
    + rewrite KD'. simpl; auto.
Qed.

Lemma stay : forall cp h i kd b e' evs, heapOk h -> commonOk h -> good h i kd -> envOk h i kd b e' ->
  (forall ev, In ev evs -> evOk cp h i ev) -> stepOk cp h i h e' evs b.
Proof.
  intros cp h i kd b e' evs HO CO G E EV. unfold stepOk.
  split; [auto|]. split; [auto|]. split; [exists kd; auto|].
  split; [intros; apply frame_refl|auto].
Qed.

Lemma reads_ok : forall cp h i e kd a y ls, heapOk h -> envOk h i kd a e -> chain h [e y] ls = true ->
  forall ev, In ev (map (Read i) ls) -> evOk cp h i ev.
Proof.
  intros cp h i e kd a y ls HO E C ev I. apply in_map_iff in I. destruct I as [l [Q I]]. subst ev.
  simpl; split; auto. eapply chain_seen; eauto.
  intros v [W|[]]. subst v. eapply vok_seen; eauto.
Qed.

Lemma block_ok : forall cp h i kd a e x blk v evs, heapOk h -> commonOk h -> good h i kd -> envOk h i kd a e ->
  closed (List.length h) blk = true -> inside (List.length h) (List.length blk) v = true ->
  (forall ev, In ev evs -> evOk cp h i ev) ->
  stepOk cp h i (h ++ owned (Of i) blk)%list (set e x v) evs (setL a x (K Deep)).
Proof.
  intros cp h i kd a e x blk v evs HO CO G E C IN EV.
  assert (NEW : forall m, List.length h <= m -> m < List.length h + List.length blk ->
            at_o (h ++ owned (Of i) blk)%list m (Of i) /\ newK h kd Deep m = Deep).
  { intros m A B; split; [now apply at_owned|now apply newK_new]. }
  destruct (ext_ok h (owned (Of i) blk) i kd Deep) as [X1 [X2 [X3 [X4 [X5 X6]]]]]; auto.
  - intros c I. unfold owned in I. apply in_map_iff in I. destruct I as [n [Q _]]; subst c; auto.
  - intros c m I V. unfold owned in I. apply in_map_iff in I. destruct I as [n [Q I]]; subst c. simpl in V.
    destruct (closed_in _ _ _ _ C I V) as [A B]. destruct (NEW m A B) as [A1 A2]. split.
    + exists (Of i); split; auto. now right; right.
    + simpl; auto.
  - split; [auto|]. split; [auto|]. split; [|split; auto].
    exists (newK h kd Deep); split; auto. apply envOk_set.
    + intros y. apply X6, E.
    + destruct v as [|m|d]; simpl; auto. simpl in IN. apply andb_true_iff in IN. destruct IN as [A B].
      apply Nat.leb_le in A. apply Nat.ltb_lt in B. now apply NEW.
Qed.

(* A new cell of kind k with the values vs. *)
Lemma cell_ok : forall cp h i kd a e x n k evs, heapOk h -> commonOk h -> good h i kd -> envOk h i kd a e ->
  (forall m, In (VLoc m) (vals n) -> below h (Of i) m /\ kindOk h i kd k m) ->
  (forall ev, In ev evs -> evOk cp h i ev) ->
  stepOk cp h i (h ++ [(Of i, n)])%list (set e x (VLoc (List.length h))) evs (setL a x (K k)).
Proof.
  intros cp h i kd a e x n k evs HO CO G E P EV.
  assert (AP : forall l o, at_o h l o -> at_o (h ++ [(Of i, n)])%list l o) by (intros; now apply at_app).
  destruct (ext_ok h [(Of i, n)] i kd k) as [X1 [X2 [X3 [X4 [X5 X6]]]]]; auto.
  - intros c [I|[]]; subst c; auto.
  - intros c m [I|[]] V; subst c. simpl in V. destruct (P m V) as [A B]. split.
    + eapply below_mono; eauto.
    + eapply kindOk_mono; [exact AP| |exact B]. intros l A1. eapply newK_old; eauto.
  - split; [auto|]. split; [auto|]. split; [|split; auto].
    exists (newK h kd k); split; auto. apply envOk_set.
    + intros y. apply X6, E.
    + simpl. split; [|now apply newK_new].
      exists n. rewrite nth_error_app2 by auto. now rewrite Nat.sub_diag.
Qed.

Lemma write_ok : forall cp h i kd b e l n n' evs, heapOk h -> commonOk h -> good h i kd -> envOk h i kd b e ->
  nth_error h l = Some (Of i, n) ->
  (forall m, In (VLoc m) (vals n') -> below h (Of i) m /\ kindOk h i kd (kd l) m) ->
  (forall ev, In ev evs -> evOk cp h i ev) ->
  stepOk cp h i (store h l n') e evs b.
Proof.
  intros cp h i kd b e l n n' evs HO CO G E N P EV.
  destruct (own_ok h i kd l n n') as [X1 [X2 [X3 [X4 [X5 X6]]]]]; auto.
  split; [auto|]. split; [auto|]. split; [|split; auto].
  exists kd; split; auto. intros y. apply X6, E.
Qed.
Lemma wrote_ok : forall cp h i l n ev, nth_error h l = Some (Of i, n) -> In ev [Wrote i l] -> evOk cp h i ev.
Proof. intros cp h i l n ev N [I|[]]; subst ev. simpl; split; auto. left; exists n; auto. Qed.

Lemma prim_ok : forall i p c e h e' h' evs kd a b,
  heapOk h -> commonOk h -> good h i kd -> envOk h i kd a e ->
  copies p = false -> (forall x, p = New x -> fz x = false) ->
  pchk p a = Some b -> pexec i p c e h = Some (e', h', evs) ->
  stepOk false h i h' e' evs b.
Proof.
  intros i p c e h e' h' evs kd a b HO CO G E NC NF C X. unfold pchk in C. rewrite NC in C.
  destruct p as [x|x y|n0 x|x|x g|x y|x y f|x y|y f x|y f|y f|y p x q|z y x|y|g f|g f];
    simpl in C; simpl in X.
  - (* New *)
    destruct c as [| | | | | |blk v ls| | | | |]; try discriminate.
    destruct ls; try discriminate.
    destruct (closed _ blk && inside _ _ v) eqn:Q; try discriminate.
    apply andb_true_iff in Q; destruct Q as [Q1 Q2]. inversion X; subst. inversion C; subst.
    rewrite (NF x eq_refl). eapply block_ok; eauto. intros ev [].
  - (* DeepCopy *)
    destruct c as [| | | | | |blk v ls| | | | |]; try discriminate.
    destruct (closed _ blk && inside _ _ v && chain h [e y] ls) eqn:Q; try discriminate.
    apply andb_true_iff in Q; destruct Q as [Q Q3]. apply andb_true_iff in Q; destruct Q as [Q1 Q2].
    inversion X; subst. inversion C; subst.
    eapply block_ok; eauto. eapply reads_ok; eauto.
  - (* Make *)
    destruct c; try discriminate. inversion X; subst. inversion C; subst.
    eapply cell_ok; eauto; simpl; tauto.
  - (* Cached *)
    destruct c as [| | | | | | |v| | | |]; try discriminate.
    destruct v as [|l|d]; try discriminate.
    + inversion X; subst. inversion C; subst. eapply stay; eauto; [|intros ev []].
      apply envOk_set; auto; simpl; auto.
    + destruct (nth_error h' l) as [[[| |j] n]|] eqn:N;
        (destruct (nth_error h l) as [[[| |j'] n']|] eqn:N2; try discriminate);
        inversion X; subst; inversion C; subst;
        (eapply stay; eauto; [|intros ev []]; apply envOk_set; auto; simpl;
         exists n'; auto).
  - (* Global *)
    destruct c; try discriminate. destruct (nth_error shared0 g) as [cc|] eqn:N; try discriminate.
    inversion X; subst. inversion C; subst. eapply stay; eauto; [|intros ev []].
    apply envOk_set; auto. simpl. exists Common; split; [right; now left|]. eapply CO; eauto.
  - (* Let *)
    destruct c; try discriminate. inversion X; subst. inversion C; subst.
    eapply stay; eauto; [|intros ev []]. apply envOk_set; auto.
  - (* Get *)
    destruct c; try discriminate. inversion C; subst.
    pose proof (E y) as V. destruct (e y) as [|l|d] eqn:Y.
    + inversion X; subst. eapply stay; eauto; [|intros ev []]. apply envOk_set; auto; simpl; auto.
    + destruct (nth_error h l) as [[o n]|] eqn:N; try discriminate. inversion X; subst.
      eapply stay; eauto.
      * apply envOk_set; auto. destruct (look_in n f) as [L|L].
        -- rewrite L. simpl; auto.
        -- eapply content_ok; eauto.
      * intros ev [I|[]]; subst ev. simpl. split; auto. apply (vok_seen _ _ _ _ _ V).
    + inversion X; subst. eapply stay; eauto; [|intros ev []]. apply envOk_set; auto; simpl; auto.
  - (* Elem *)
    destruct c as [| | | | | | |v| | | |]; try discriminate. inversion C; subst.
    pose proof (E y) as V. destruct (e y) as [|l|d] eqn:Y; try discriminate.
    destruct (nth_error h l) as [[o n]|] eqn:N; try discriminate.
    destruct (existsb _ n) eqn:Q; try discriminate. inversion X; subst.
    eapply stay; eauto.
    + apply envOk_set; auto. eapply content_ok; eauto.
      apply existsb_exists in Q. destruct Q as [[k u] [I Q]]. simpl in Q. apply veq_eq in Q. subst u.
      unfold vals. apply in_map_iff. exists (k, v); auto.
    + intros ev [I|[]]; subst ev. simpl. split; auto. apply (vok_seen _ _ _ _ _ V).
  - (* Put *)
    destruct c as [| | | | | | | |k d| | |]; try discriminate.
    destruct (e y) as [|l|d'] eqn:Y; try discriminate.
    destruct (into_ok _ _ _ _ _ _ _ _ _ HO CO G E C Y) as [kd' [n [G' [E' [N [_ [P1 P2]]]]]]].
    rewrite N in X. inversion X; subst.
    eapply write_ok; eauto; [|intros; eapply wrote_ok; eauto].
    intros m I. apply put_in in I. destruct I as [I|I]; auto.
    apply (P1 (e' x) m); auto.
  - (* Data *)
    destruct c as [| | | | | | | |k d| | |]; try discriminate.
    destruct (e y) as [|l|d'] eqn:Y; try discriminate.
    destruct (into_ok _ _ _ _ _ _ _ _ _ HO CO G E C Y) as [kd' [n [G' [E' [N [_ [P1 P2]]]]]]].
    rewrite N in X. inversion X; subst.
    eapply write_ok; eauto; [|intros; eapply wrote_ok; eauto].
    intros m I. apply put_in in I. destruct I as [I|I]; auto. discriminate.
  - (* Drop *)
    destruct c as [| | | | | | | |k d| | |]; try discriminate.
    destruct (e y) as [|l|d'] eqn:Y.
    + inversion X; subst. unfold into in C. destruct (lv a y) as [|kk| |]; try discriminate; try (destruct (fits kk Bot) eqn:F; [|destruct kk; try discriminate]); inversion C; subst;
      try (eapply stay; eauto; intros ev []).
    + destruct (into_ok _ _ _ _ _ _ _ _ _ HO CO G E C Y) as [kd' [n [G' [E' [N [_ [P1 P2]]]]]]].
      rewrite N in X. inversion X; subst.
      eapply write_ok; eauto; [|intros; eapply wrote_ok; eauto].
      intros m I. apply without_in in I. auto.
    + inversion X; subst. unfold into in C. destruct (lv a y) as [|kk| |]; try discriminate; try (destruct (fits kk Bot) eqn:F; [|destruct kk; try discriminate]); inversion C; subst;
      try (eapply stay; eauto; intros ev []).
  - (* Fields *)
    destruct c; try discriminate.
    destruct (e y) as [|l|d'] eqn:Y; try discriminate.
    destruct (e x) as [|m0|d'] eqn:Y2; try discriminate.
    destruct (into_ok _ _ _ _ _ _ _ _ _ HO CO G E C Y) as [kd' [n [G' [E' [N [_ [P1 P2]]]]]]].
    rewrite N in X. destruct (nth_error h m0) as [[o k]|] eqn:N2; try discriminate. inversion X; subst.
    pose proof (E x) as V. rewrite Y2 in V.
    eapply write_ok; eauto.
    + intros m I. apply copied_in in I. destruct I as [I|I]; auto.
      apply (P1 (VLoc m) m); auto. eapply content_ok; eauto.
    + intros ev [I|I]; [subst ev; simpl; split; auto; apply (vok_seen _ _ _ _ _ V)|].
      eapply wrote_ok; eauto.
  - (* Append *)
    destruct (e y) as [|l|d'] eqn:Y.
    + destruct c; try discriminate. inversion X; subst.
      assert (exists kd' k b', good h i kd' /\ envOk h i kd' b' e /\ b = setL b' z (K k) /\
                (forall m, e x = VLoc m -> below h (Of i) m /\ kindOk h i kd' k m)) as [kd' [k [b' [G' [E' [B P]]]]]].
      { destruct (lv a y) as [|k| |] eqn:LY; try discriminate.
        - inversion C; subst. exists kd, (Sh 0), a. repeat split; auto.
          pose proof (E x) as V. rewrite H in V. eapply seen_below, vok_seen; eauto.
        - unfold into in C. rewrite LY in C. destruct (fits k (lv a x)) eqn:F.
          + inversion C; subst. exists kd, k, a. rewrite LY. repeat split; auto.
            * pose proof (E x) as V. rewrite H in V. eapply seen_below, vok_seen; eauto.
            * eapply fits_ok; eauto.
          + destruct k; try discriminate. inversion C; subst.
            destruct (demote_ok _ _ _ _ _ G E) as [G' E'].
            exists (demoteK kd), (Sh 0), (demote a). rewrite lv_demote, LY. repeat split; auto.
            * pose proof (E x) as V. rewrite H in V. eapply seen_below, vok_seen; eauto.
        - unfold into in C; rewrite LY in C; discriminate.
        - unfold into in C; rewrite LY in C; discriminate. }
      subst b. eapply cell_ok; eauto; [|intros ev []].
      intros m [I|[]]. auto.
    + assert (LB : lv a y <> Bot).
      { intros Q. pose proof (E y) as V. rewrite Q, Y in V. simpl in V. tauto. }
      destruct (into a y (lv a x)) as [b'|] eqn:IN;
        [|destruct (lv a y); try congruence; discriminate].
      assert (C' : b = setL b' z (lv b' y)) by (destruct (lv a y); congruence). subst b.
      destruct (into_ok _ _ _ _ _ _ _ _ _ HO CO G E IN Y) as [kd' [n [G' [E' [N [LV [P1 P2]]]]]]].
      rewrite N in X. rewrite LV.
      assert (P3 : forall m, In (VLoc m) (vals (n ++ [("*", e x)])%list) ->
                 below h (Of i) m /\ kindOk h i kd' (kd' l) m).
      { intros m I. unfold vals in I. rewrite map_app in I. apply in_app_iff in I.
        destruct I as [I|[I|[]]]; auto. simpl in I. apply (P1 (e x) m); auto. }
      destruct c; try discriminate; inversion X; subst.
      * eapply write_ok; eauto.
        -- apply envOk_set; auto. simpl. split; auto. exists n; auto.
        -- intros; eapply wrote_ok; eauto.
      * eapply cell_ok; eauto.
        intros ev [I|[]]; subst ev. simpl; split; auto. exists (Of i); split; [now right; right|exists n; auto].
    + destruct c; try discriminate. inversion X; subst.
      assert (exists kd' k b', good h i kd' /\ envOk h i kd' b' e /\ b = setL b' z (K k) /\
                (forall m, e x = VLoc m -> below h (Of i) m /\ kindOk h i kd' k m)) as [kd' [k [b' [G' [E' [B P]]]]]].
      { destruct (lv a y) as [|k| |] eqn:LY; try discriminate.
        - inversion C; subst. exists kd, (Sh 0), a. repeat split; auto.
          pose proof (E x) as V. rewrite H in V. eapply seen_below, vok_seen; eauto.
        - unfold into in C. rewrite LY in C. destruct (fits k (lv a x)) eqn:F.
          + inversion C; subst. exists kd, k, a. rewrite LY. repeat split; auto.
            * pose proof (E x) as V. rewrite H in V. eapply seen_below, vok_seen; eauto.
            * eapply fits_ok; eauto.
          + destruct k; try discriminate. inversion C; subst.
            destruct (demote_ok _ _ _ _ _ G E) as [G' E'].
            exists (demoteK kd), (Sh 0), (demote a). rewrite lv_demote, LY. repeat split; auto.
            * pose proof (E x) as V. rewrite H in V. eapply seen_below, vok_seen; eauto.
        - unfold into in C; rewrite LY in C; discriminate.
        - unfold into in C; rewrite LY in C; discriminate. }
      subst b. eapply cell_ok; eauto; [|intros ev []].
      intros m [I|[]]. auto.
  - (* Send *)
    destruct c as [| | | | | | | | | | |ls]; try discriminate.
    destruct (chain h [e y] ls) eqn:Q; try discriminate. inversion X; subst. inversion C; subst.
    eapply stay; eauto. eapply reads_ok; eauto.
  - (* SetShared *)
    destruct c as [| | | | | | | |k d| | |]; try discriminate.
    destruct (ul && Nat.eqb g 0)%bool eqn:Z; try discriminate. apply andb_true_iff in Z. destruct Z as [UL Z]. apply Nat.eqb_eq in Z. subst g. inversion C; subst b.
    destruct (CO 0 _ eq_refl) as [n N]. rewrite N in X. cbn [nth_error shared0] in X. inversion X; subst.
    assert (NP : forall m, ~ In (VLoc m) (vals (put n f (VData d)))).
    { intros m I. apply put_in in I. destruct I as [I|I]; try discriminate. apply (HO 0 Common n N m I). }
    destruct (common_ok h 0 n (put n f (VData d))) as [X1 [X2 [X3 X4]]]; auto.
    destruct (frame_ok h (store h 0 (put n f (VData d))) i kd a e') as [G' E']; auto.
    split; auto. split; auto. split; [exists kd; auto|]. split; auto.
    intros ev [I|[]]; subst ev. simpl; split; auto. right; left; split; auto. split; auto. exists n; auto.
  - (* LockedSet *)
    destruct c as [| | | | | | | |k d| | |]; try discriminate.
    destruct (Nat.eqb g 2) eqn:Z; try discriminate. apply Nat.eqb_eq in Z. subst g. inversion C; subst b.
    destruct (CO 2 _ eq_refl) as [n N]. rewrite N in X. cbn [nth_error shared0] in X. inversion X; subst.
    assert (NP : forall m, ~ In (VLoc m) (vals (put n f (VData d)))).
    { intros m I. apply put_in in I. destruct I as [I|I]; try discriminate. apply (HO 2 Common n N m I). }
    destruct (common_ok h 2 n (put n f (VData d))) as [X1 [X2 [X3 X4]]]; auto.
    destruct (frame_ok h (store h 2 (put n f (VData d))) i kd a e') as [G' E']; auto.
    split; auto. split; auto. split; [exists kd; auto|]. split; auto.
    intros ev [I|[]]; subst ev. simpl; split; auto. split; auto. exists n; auto.
Qed.

(* ---- a result that is never written, and a copy into a cached object ---- *)
Lemma frozen_ok : forall h i kd a e x blk v, heapOk h -> commonOk h -> good h i kd -> envOk h i kd a e ->
  closed (List.length h) blk = true -> inside (List.length h) (List.length blk) v = true ->
  stepOk false h i (h ++ owned Cache blk)%list (set e x v) [] (setL a x C) /\
  (forall l o, at_o h l o -> at_o (h ++ owned Cache blk)%list l o).
Proof.
  intros h i kd a e x blk v HO CO G E CL IN.
  assert (AP : forall l o, at_o h l o -> at_o (h ++ owned Cache blk)%list l o) by (intros; now apply at_app).
  assert (F : forall j, frame j h (h ++ owned Cache blk)%list).
  { intros j. split; [|split].
    - intros l o n N. apply AP. exists n; auto.
    - intros l n N. now apply nth_app_l.
    - intros l n N. apply nth_app_inv in N. destruct N as [N|[L N]]; auto.
      apply nth_owned in N. destruct N as [k [Q _]]. congruence. }
  split; [|auto].
  split; [|split; [|split; [|split]]].
  - intros l o n N m I. apply nth_app_inv in N. destruct N as [N|[L N]].
    + eapply below_mono; eauto.
    + apply nth_owned in N. destruct N as [k [Q I2]]. inversion Q; subst.
      destruct (closed_in _ _ _ _ CL I2 I) as [A B]. simpl. now apply at_owned.
  - intros l c N. apply AP. eapply CO; eauto.
  - destruct (frame_ok _ _ _ _ _ _ (F i) G E) as [G' E']. exists kd; split; auto.
    apply envOk_set; auto. destruct v as [|m|d]; simpl; auto.
    simpl in IN. apply andb_true_iff in IN. destruct IN as [A B].
    apply Nat.leb_le in A. apply Nat.ltb_lt in B. now apply at_owned.
  - intros j _. apply F.
  - intros ev [].
Qed.

Lemma cached_at : forall h i kd u m, cached u = true -> vok h i kd u (VLoc m) -> at_o h m Cache.
Proof. intros h i kd [|k| |] m L V; simpl in *; try discriminate; tauto. Qed.

Lemma cwrite_ok : forall h i kd a e l n n' evs, heapOk h -> commonOk h -> good h i kd -> envOk h i kd a e ->
  nth_error h l = Some (Cache, n) -> (forall m, In (VLoc m) (vals n') -> at_o h m Cache) ->
  (forall ev, In ev evs -> evOk true h i ev) -> stepOk true h i (store h l n') e evs a.
Proof.
  intros h i kd a e l n n' evs HO CO G E N0 P EV.
  assert (AP : forall m o, at_o h m o -> at_o (store h l n') m o) by (intros; now apply at_store).
  assert (F : forall j, frame j h (store h l n')).
  { intros j. split; [|split].
    - intros m o nn N. apply AP. exists nn; auto.
    - intros m nn N. rewrite store_other; auto. intros Q; subst m. congruence.
    - intros m nn N. destruct (store_inv _ _ _ _ _ _ _ N0 N) as [[Q D]|[Q D]]; auto. congruence. }
  split; [|split; [|split; [|split]]]; auto.
  - intros m o nn N q I. apply (below_mono h); auto.
    destruct (store_inv _ _ _ _ _ _ _ N0 N) as [[Q D]|[Q D]].
    + inversion D; subst. simpl. auto.
    + eapply HO; eauto.
  - intros m c N. apply AP. eapply CO; eauto.
  - destruct (frame_ok _ _ _ _ _ _ (F i) G E) as [G' E']. exists kd; auto.
Qed.

Lemma copy_ok : forall i p c e h e' h' evs kd a b,
  heapOk h -> commonOk h -> good h i kd -> envOk h i kd a e ->
  cchk p a = Some b -> pexec i p c e h = Some (e', h', evs) -> stepOk true h i h' e' evs b.
Proof.
  intros i p c e h e' h' evs kd a b HO CO G E K0 X.
  destruct p as [x|x y|n0 x|x|x s|x y|x y f|x y|y f x|y f|y f|y p x q|z y x|y|s f|s f];
    simpl in K0; try discriminate; simpl in X.
  - (* Put *)
    destruct (cached (lv a y) && cached (lv a x))%bool eqn:Q; try discriminate.
    apply andb_true_iff in Q. destruct Q as [Q1 Q2]. inversion K0; subst b.
    destruct c as [| | | | | | | |k d| | |]; try discriminate.
    pose proof (E y) as V. destruct (e y) as [|l|d'] eqn:Y; try discriminate.
    destruct (cached_at _ _ _ _ _ Q1 V) as [n N]. rewrite N in X. inversion X; subst.
    eapply cwrite_ok; eauto.
    + intros m I. apply put_in in I. destruct I as [I|I].
      * pose proof (E x) as V2. rewrite <- I in V2. eapply cached_at; eauto.
      * apply (HO l Cache n N m I).
    + intros ev [I|[]]; subst ev. simpl; split; auto. right; right; split; auto. exists n; auto.
  - (* Data *)
    destruct (cached (lv a y)) eqn:Q1; try discriminate. inversion K0; subst b.
    destruct c as [| | | | | | | |k d| | |]; try discriminate.
    pose proof (E y) as V. destruct (e y) as [|l|d'] eqn:Y; try discriminate.
    destruct (cached_at _ _ _ _ _ Q1 V) as [n N]. rewrite N in X. inversion X; subst.
    eapply cwrite_ok; eauto.
    + intros m I. apply put_in in I. destruct I as [I|I]; try discriminate. apply (HO l Cache n N m I).
    + intros ev [I|[]]; subst ev. simpl; split; auto. right; right; split; auto. exists n; auto.
  - (* Fields *)
    destruct (cached (lv a y) && cached (lv a x))%bool eqn:Q; try discriminate.
    apply andb_true_iff in Q. destruct Q as [Q1 Q2]. inversion K0; subst b.
    destruct c; try discriminate.
    pose proof (E y) as V. destruct (e y) as [|l|d'] eqn:Y; try discriminate.
    pose proof (E x) as V2. destruct (e x) as [|m0|d'] eqn:Y2; try discriminate.
    destruct (cached_at _ _ _ _ _ Q1 V) as [n N]. destruct (cached_at _ _ _ _ _ Q2 V2) as [n2 N2].
    rewrite N, N2 in X. inversion X; subst.
    eapply cwrite_ok; eauto.
    + intros m I. apply copied_in in I. destruct I as [I|I].
      * apply (HO l Cache n N m I).
      * apply (HO m0 Cache n2 N2 m I).
    + intros ev [I|[I|[]]]; subst ev; simpl; split; auto.
      * exists Cache; split; [now left|exists n2; auto].
      * right; right; split; auto. exists n; auto.
Qed.

Lemma prim_at : forall i p c e h e' h' evs, pexec i p c e h = Some (e', h', evs) ->
  forall l o, at_o h l o -> at_o h' l o.
Proof.
  intros i p c e h e' h' evs X l o A.
  assert (S : forall g n, at_o (store h g n) l o) by (intros; now apply at_store).
  assert (P : forall g, at_o (h ++ g)%list l o) by (intros; now apply at_app).
  destruct p; destruct c; cbn [pexec] in X; try discriminate;
    repeat match type of X with
           | (if ?b then _ else _) = _ => destruct b; try discriminate
           | match ?t with _ => _ end = _ => destruct t; try discriminate
           end;
    inversion X; subst; auto.
Qed.

(* ---- the same memory with some cells of workers counted as cached ---- *)
Definition counts (a b : Owner) : Prop := a = b \/ ((exists i, a = Of i) /\ b = Cache).
Definition sim (h hs : Heap) : Prop := Forall2 (fun c d => snd c = snd d /\ counts (fst c) (fst d)) h hs.

Lemma sim_len : forall h hs, sim h hs -> List.length hs = List.length h.
Proof. induction 1; simpl; auto. Qed.
Lemma sim_nth : forall h hs, sim h hs -> forall l,
  match nth_error h l, nth_error hs l with
  | Some (o, n), Some (o', n') => n = n' /\ counts o o'
  | None, None => True
  | _, _ => False
  end.
Proof.
  induction 1 as [|[o n] [o' n'] h hs [E B] F IH]; intros [|l]; simpl; auto.
  apply IH.
Qed.
Lemma sim_app : forall h hs g gs, sim h hs -> sim g gs -> sim (h ++ g)%list (hs ++ gs)%list.
Proof. intros; now apply Forall2_app. Qed.
Lemma sim_store : forall h hs, sim h hs -> forall l n, sim (store h l n) (store hs l n).
Proof.
  induction 1 as [|[o n] [o' n'] h hs [E B] F IH]; intros [|l] m; simpl; try constructor; auto.
  apply IH.
Qed.
Lemma sim_owned : forall o o' b, counts o o' -> sim (owned o b) (owned o' b).
Proof. intros o o' b B. unfold owned. induction b; simpl; constructor; auto. Qed.
Lemma sim_one : forall o n, sim [(o, n)] [(o, n)].
Proof. intros o n; constructor; [simpl; split; auto; now left|constructor]. Qed.
Lemma sim_chain : forall h hs, sim h hs -> forall ls vs, chain hs vs ls = chain h vs ls.
Proof.
  intros h hs S. induction ls as [|l r IH]; intros vs; simpl; auto.
  pose proof (sim_nth _ _ S l) as N.
  destruct (nth_error h l) as [[o n]|], (nth_error hs l) as [[o' n']|]; try tauto.
  destruct N as [N _]. subst n'. now rewrite IH.
Qed.
Lemma sim_at : forall h hs l o, sim h hs -> at_o hs l o -> o <> Cache -> at_o h l o.
Proof.
  intros h hs l o S [n N] D. pose proof (sim_nth _ _ S l) as M. rewrite N in M.
  destruct (nth_error h l) as [[o' n']|] eqn:Q; try tauto. destruct M as [_ [M|[_ M]]]; try congruence.
  subst. exists n'; auto.
Qed.

Lemma pexec_sim : forall i p c e h e' h' evs hs, pexec i p c e h = Some (e', h', evs) -> sim h hs ->
  exists hs', pexec i p c e hs = Some (e', hs', evs) /\ sim h' hs'.
Proof.
  intros i p c e h e' h' evs hs X S.
  pose proof (sim_len _ _ S) as L.
  assert (AP : forall o b, sim (h ++ owned o b)%list (hs ++ owned o b)%list)
    by (intros; apply sim_app; auto; apply sim_owned; now left).
  assert (A1 : forall o n, sim (h ++ [(o, n)])%list (hs ++ [(o, n)])%list)
    by (intros; apply sim_app; auto using sim_one).
  assert (ST : forall l n, sim (store h l n) (store hs l n)) by (intros; now apply sim_store).
  pose proof (sim_nth _ _ S) as N.
  destruct p as [x|x y|n0 x|x|x s|x y|x y f|x y|y f x|y f|y f|y p x q|z y x|y|s f|s f];
    destruct c as [| | | | | |blk v ls|v|k d| | |ls]; cbn [pexec] in X |- *; try discriminate;
    rewrite ?L, ?(sim_chain _ _ S);
    repeat match type of X with
           | context [match nth_error h ?l with _ => _ end] =>
               let M := fresh "M" in
               pose proof (N l) as M; destruct (nth_error h l) as [[? ?]|]; destruct (nth_error hs l) as [[? ?]|];
               try (exfalso; exact M); try match type of M with _ /\ _ => destruct M as [M ?] end; subst; try discriminate
           | (if ?b then _ else _) = _ => destruct b; try discriminate
           | match ?t with _ => _ end = _ => destruct t; try discriminate
           end;
    inversion X; subst; eauto.
  - destruct H as [H|[_ H]]; subst; eauto.
Qed.

(* ---- one step of a worker ---- *)
Definition idleOk (h : Heap) (i : nat) (e : Env) (k : Kont) : Prop :=
  exists kd a, good h i kd /\ envOk h i kd a e /\ ktyped a k.
Definition wOk (cp : bool) (h : Heap) (i : nat) (h' : Heap) (e' : Env) (k' : Kont) (evs : list Event) : Prop :=
  heapOk h' /\ commonOk h' /\ idleOk h' i e' k' /\
  (forall j, j <> i -> frame j h h') /\ (forall ev, In ev evs -> evOk cp h i ev) /\
  (forall l o, at_o h l o -> at_o h' l o).
Definition next_copies (k : Kont) : bool := match k with Do p :: _ => copies p | _ => false end.

Lemma gprim : forall i p c e h e' h' evs kd a b hs, sim h hs ->
  heapOk hs -> commonOk hs -> good hs i kd -> envOk hs i kd a e ->
  pchk p a = Some b -> pexec i p c e h = Some (e', h', evs) ->
  exists hs', sim h' hs' /\ stepOk (copies p) hs i hs' e' evs b /\
    (forall l o, at_o hs l o -> at_o hs' l o).
Proof.
  intros i p c e h e' h' evs kd a b hs S HO CO G E P X.
  destruct (pexec_sim _ _ _ _ _ _ _ _ _ X S) as [hs1 [X1 S1]].
  destruct (copies p) eqn:CP.
  - exists hs1. split; auto. split; [|eapply prim_at; eauto].
    unfold pchk in P. rewrite CP in P. eapply copy_ok; eauto.
  - assert (Q : (exists x, p = New x /\ fz x = true) \/ (forall x, p = New x -> fz x = false)).
    { destruct p; try (right; intros; discriminate).
      destruct (fz x) eqn:Z; [left; eauto|right; intros y Y; inversion Y; subst; auto]. }
    destruct Q as [[x [Q Z]]|Q].
    + subst p. unfold pchk in P. rewrite CP, Z in P. inversion P; subst b.
      destruct c as [| | | | | |blk v ls| | | | |]; cbn [pexec] in X; try discriminate.
      destruct ls; try discriminate.
      destruct (closed _ blk && inside _ _ v)%bool eqn:W; try discriminate.
      apply andb_true_iff in W. destruct W as [W1 W2]. inversion X; subst.
      rewrite <- (sim_len _ _ S) in W1, W2.
      destruct (frozen_ok hs i kd a e x blk v HO CO G E W1 W2) as [A B].
      exists (hs ++ owned Cache blk)%list. split; auto.
      apply sim_app; auto. apply sim_owned. right; split; eauto.
    + exists hs1. split; auto. split; [|eapply prim_at; eauto]. eapply prim_ok; eauto.
Qed.

Lemma same_ok : forall cp h i e k, heapOk h -> commonOk h -> idleOk h i e k -> wOk cp h i h e k [].
Proof.
  intros cp h i e k HO CO ID. unfold wOk.
  split; [auto|]. split; [auto|]. split; [auto|]. split; [intros; apply frame_refl|].
  split; [intros ev []|auto].
Qed.

Lemma typed_step : forall a p b, typed a p b ->
  forall i c e h r kd e' k' h' evs hs, sim h hs ->
  heapOk hs -> commonOk hs -> good hs i kd -> envOk hs i kd a e -> ktyped b r ->
  wexec i c e (p :: r) h = Some (e', k', h', evs) ->
  exists hs', sim h' hs' /\ wOk (next_copies (p :: r)) hs i hs' e' k' evs.
Proof.
  intros a p b T. induction T as [a|a p b H|a p b q c0 T1 IH1 T2 IH2 L|a p q b T1 IH1 T2 IH2|a p T IH|a a' p b' b L1 T IH L2];
    intros i c e h r kd e' k' h' evs hs S HO CO G E KT X; simpl in X.
  - destruct c; try discriminate. inversion X; subst. exists hs; split; auto. apply same_ok; auto. exists kd, a; auto.
  - destruct (pexec i p c e h) as [[[e1 h1] ev1]|] eqn:PX; try discriminate. inversion X; subst.
    destruct (gprim _ _ _ _ _ _ _ _ _ _ _ _ S HO CO G E H PX) as [hs' [S' [[H1 [H2 [[kd' [H3 H4]] [H5 H6]]]] AT]]].
    exists hs'. split; auto. unfold wOk. split; [auto|]. split; [auto|]. split; [exists kd', b; auto|]. auto.
  - destruct c; try discriminate; inversion X; subst; exists hs; (split; [auto|]); apply same_ok; auto;
      exists kd, a; repeat split; auto.
    + exists b; split; auto. exists c0; auto.
    + exists b; split; auto. eapply ktyped_LE; eauto.
  - destruct c; try discriminate; inversion X; subst; exists hs; (split; [auto|]); apply same_ok; auto;
      exists kd, a; repeat split; auto; exists b; auto.
  - destruct c; try discriminate; inversion X; subst; exists hs; (split; [auto|]); apply same_ok; auto;
      exists kd, a; repeat split; auto.
    exists a; split; auto. exists a; split; auto. now constructor.
  - destruct (LE_ok _ _ _ _ _ _ L1 G E) as [kd' [G' E']].
    eapply IH; eauto. eapply ktyped_LE; eauto.
Qed.

Lemma wexec_ok : forall i c e k h e' k' h' evs hs, sim h hs ->
  heapOk hs -> commonOk hs -> idleOk hs i e k ->
  wexec i c e k h = Some (e', k', h', evs) ->
  exists hs', sim h' hs' /\ wOk (next_copies k) hs i hs' e' k' evs.
Proof.
  intros i c e k h e' k' h' evs hs S HO CO [kd [a [G [E KT]]]] X.
  destruct k as [|p r]; [discriminate|]. simpl in KT. destruct KT as [b [T KT]].
  eapply typed_step; eauto.
Qed.

(* ---- the process ---- *)
Definition Inv (w : World) (hs : Heap) : Prop :=
  sim (heap w) hs /\ heapOk hs /\ commonOk hs /\ (forall i, idleOk hs i (env w i) (kont w i)).

Lemma idle_frame : forall h h' j e k, frame j h h' -> idleOk h j e k -> idleOk h' j e k.
Proof.
  intros h h' j e k F [kd [a [G [E KT]]]].
  destruct (frame_ok h h' j kd a e) as [G' E']; auto. exists kd, a; auto.
Qed.

Definition evsOk (cp : bool) (h : Heap) (evs : list Event) : Prop :=
  forall ev, In ev evs -> exists i, evOk cp h i ev.
Lemma evOk_mono : forall cp h h' i ev, (forall l o, at_o h l o -> at_o h' l o) ->
  evOk cp h i ev -> evOk cp h' i ev.
Proof.
  intros cp h h' i [j l|j l|j l] F H; simpl in *.
  - destruct H as [A [o [M B]]]; split; auto. exists o; auto.
  - destruct H as [A [B|[[B [D B2]]|[B D]]]]; split; auto. right; left; auto.
  - destruct H as [A [B D]]; auto.
Qed.
Lemma evOk_weak : forall cp h i ev, evOk cp h i ev -> evOk true h i ev.
Proof.
  intros cp h i [j l|j l|j l] H; simpl in *; auto.
  destruct H as [A [B|[B|[B D]]]]; split; auto.
Qed.

Definition copying (w : World) (m : Move) : bool :=
  match m with Work i _ => next_copies (kont w i) | _ => false end.

Lemma move_ok : forall ps m w w' evs hs, checked ps = true -> Inv w hs -> move ps m w = Some (w', evs) ->
  exists hs', Inv w' hs' /\ (forall l o, at_o hs l o -> at_o hs' l o) /\ evsOk (copying w m) hs' evs.
Proof.
  intros ps m [h en ko] w' evs hs CK [S [HO [CO ID]]] X. simpl in *.
  destruct m as [i c|i n|b]; simpl in X.
  - destruct (wexec i c (en i) (ko i) h) as [[[[e k] h1] ev]|] eqn:W; try discriminate.
    inversion X; subst. simpl.
    destruct (wexec_ok _ _ _ _ _ _ _ _ _ _ S HO CO (ID i) W) as [hs' [S' [H1 [H2 [H3 [H4 [H6 H7]]]]]]].
    exists hs'. split; [|split; [auto|]].
    + split; [auto|]. split; [auto|split; [auto|]]. intros j. simpl. unfold at_. destruct (Nat.eqb i j) eqn:Q.
      * apply Nat.eqb_eq in Q; subst j; auto.
      * apply Nat.eqb_neq in Q. eapply idle_frame; [apply H4; auto|apply ID].
    + intros ev I. exists i. eapply evOk_mono; eauto.
  - destruct (ko i) eqn:Q; try discriminate. destruct (nth_error ps n) as [p|] eqn:N; try discriminate.
    inversion X; subst. simpl. exists hs. split; [|split; [auto|intros ev []]].
    split; [auto|]. split; [auto|split; [auto|]]. intros j. simpl. unfold at_. destruct (Nat.eqb i j) eqn:Q2; [|apply ID].
    apply Nat.eqb_eq in Q2; subst j. destruct (ID i) as [kd [a [G _]]].
    exists kd, []. split; [auto|]. split; [intros x; simpl; auto|].
    unfold checked in CK. rewrite forallb_forall in CK. specialize (CK p (nth_error_In _ _ N)).
    destruct (chk p []) as [b|] eqn:CP; try discriminate.
    exists b; split; [now apply chk_typed|simpl; auto].
  - destruct (closed (List.length h) b) eqn:CL; try discriminate. inversion X; subst. simpl.
    rewrite <- (sim_len _ _ S) in CL.
    assert (AP : forall l o, at_o hs l o -> at_o (hs ++ owned Cache b)%list l o) by (intros; now apply at_app).
    assert (F : forall j, frame j hs (hs ++ owned Cache b)%list).
    { intros j. split; [|split].
      - intros l o n N. apply AP. exists n; auto.
      - intros l n N. now apply nth_app_l.
      - intros l n N. apply nth_app_inv in N. destruct N as [N|[L N]]; auto.
        apply nth_owned in N. destruct N as [k [Q _]]. congruence. }
    exists (hs ++ owned Cache b)%list. split; [|split; [auto|intros ev []]].
    split; [|split; [|split]]; simpl.
    + apply sim_app; auto. apply sim_owned; now left.
    + intros l o n N m I. apply nth_app_inv in N. destruct N as [N|[L N]].
      * eapply below_mono; eauto.
      * apply nth_owned in N. destruct N as [k [Q I2]].
        inversion Q; subst. destruct (closed_in _ _ _ _ CL I2 I) as [A B]. simpl. now apply at_owned.
    + intros l c N. apply AP. eapply CO; eauto.
    + intros j. eapply idle_frame; [apply F|apply ID].
Qed.

Lemma run_ok : forall ps ms w w' evs hs, checked ps = true -> Inv w hs -> run ps ms w = Some (w', evs) ->
  exists hs', Inv w' hs' /\ (forall l o, at_o hs l o -> at_o hs' l o) /\ evsOk true hs' evs.
Proof.
  intros ps ms. induction ms as [|m r IH]; intros w w' evs hs CK I X; simpl in X.
  - inversion X; subst. exists hs. split; [auto|split; [auto|intros ev []]].
  - destruct (move ps m w) as [[w1 ev1]|] eqn:M; try discriminate.
    destruct (run ps r w1) as [[w2 ev2]|] eqn:R; try discriminate. inversion X; subst.
    destruct (move_ok _ _ _ _ _ _ CK I M) as [h1 [I1 [A1 E1]]].
    destruct (IH _ _ _ _ CK I1 R) as [h2 [I2 [A2 E2]]].
    exists h2. split; [auto|]. split; [auto|].
    intros ev J. apply in_app_iff in J. destruct J as [J|J]; auto.
    destruct (E1 ev J) as [i Q]. exists i. eapply evOk_weak, evOk_mono; eauto.
Qed.

Lemma Inv0 : Inv world0 shared0.
Proof.
  split; [|split; [|split]].
  - simpl. repeat constructor.
  - intros l o n N m I. simpl in N. do 3 (destruct l as [|l]; [inversion N; subst; simpl in I; repeat destruct I as [I|I]; try discriminate; tauto|]).
    destruct l; discriminate.
  - intros l [o n] N. simpl in *. do 3 (destruct l as [|l]; [inversion N; subst; eexists; reflexivity|]).
    destruct l; discriminate.
  - intros i. exists (fun _ => Deep), []. split; [|split; [intros x; simpl; auto|simpl; auto]].
    intros l n N. simpl in N. do 3 (destruct l as [|l]; [discriminate|]). destruct l; discriminate.
Qed.

(* ---- what is not written stays ---- *)
Lemma prim_unwritten : forall i p c e h e' h' evs, pexec i p c e h = Some (e', h', evs) ->
  forall l o n, nth_error h l = Some (o, n) ->
  (forall j, ~ In (Wrote j l) evs /\ ~ In (Locked j l) evs) -> nth_error h' l = Some (o, n).
Proof.
  intros i p c e h e' h' evs X l o n N U.
  assert (P : forall b, nth_error (h ++ b)%list l = Some (o, n)) by (intros; now apply nth_app_l).
  assert (ST : forall k m, k <> l -> nth_error (store h k m) l = Some (o, n)) by (intros; now rewrite store_other).
  destruct p; destruct c; cbn [pexec] in X; try discriminate;
    repeat match type of X with
           | (if ?b then _ else _) = _ => destruct b; try discriminate
           | match ?t with _ => _ end = _ => destruct t; try discriminate
           end;
    inversion X; subst; auto;
    (apply ST; intros Q; subst; destruct (U i) as [U1 U2]; simpl in U1, U2; tauto).
Qed.
Lemma move_unwritten : forall ps m w w' evs, move ps m w = Some (w', evs) ->
  forall l o n, nth_error (heap w) l = Some (o, n) ->
  (forall j, ~ In (Wrote j l) evs /\ ~ In (Locked j l) evs) -> nth_error (heap w') l = Some (o, n).
Proof.
  intros ps m [h en ko] w' evs X l o n N U. simpl in N. destruct m as [i c|i k|b]; simpl in X.
  - destruct (wexec i c (en i) (ko i) h) as [[[[e k] h1] ev]|] eqn:W; try discriminate.
    inversion X; subst. simpl. destruct (ko i) as [|p r]; simpl in W; try discriminate.
    destruct p; try (destruct c; try discriminate; inversion W; subst; auto; fail).
    destruct (pexec i p c (en i) h) as [[[e1 h1'] ev1]|] eqn:PX; try discriminate. inversion W; subst.
    eapply prim_unwritten; eauto.
  - destruct (ko i); try discriminate. destruct (nth_error ps k); try discriminate. inversion X; subst; auto.
  - destruct (closed (List.length h) b); try discriminate. inversion X; subst. simpl. now apply nth_app_l.
Qed.
Lemma run_app : forall ps a b w w' tr, run ps (a ++ b)%list w = Some (w', tr) ->
  exists w1 tr1 tr2, run ps a w = Some (w1, tr1) /\ run ps b w1 = Some (w', tr2) /\ tr = (tr1 ++ tr2)%list.
Proof.
  intros ps. induction a as [|m r IH]; intros b w w' tr X; simpl in *.
  - exists w, [], tr. auto.
  - destruct (move ps m w) as [[w1 ev]|] eqn:M; try discriminate.
    destruct (run ps (r ++ b)%list w1) as [[w2 ev2]|] eqn:R; try discriminate. inversion X; subst.
    destruct (IH _ _ _ _ R) as [w3 [t1 [t2 [A [B D]]]]].
    rewrite A. exists w3, (ev ++ t1)%list, t2. subst ev2. split; auto. split; auto. now rewrite app_assoc.
Qed.

(* ---- what follows for checked programs ---- *)
Theorem cache_written : forall ps ms m w w' tr evs, checked ps = true ->
  run ps ms world0 = Some (w, tr) -> move ps m w = Some (w', evs) -> copying w m = false ->
  forall i l n, In (Wrote i l) evs \/ In (Locked i l) evs -> nth_error (heap w') l <> Some (Cache, n).
Proof.
  intros ps ms m w w' tr evs CK R M NC i l n H N.
  destruct (run_ok _ _ _ _ _ _ CK Inv0 R) as [hs [I _]].
  destruct (move_ok _ _ _ _ _ _ CK I M) as [hs' [[S _] [_ E]]]. rewrite NC in E.
  assert (A : forall o, o <> Cache -> at_o hs' l o -> False).
  { intros o D A. destruct (sim_at _ _ _ _ S A D) as [k Q]. congruence. }
  destruct H as [H|H]; destruct (E _ H) as [j Q]; simpl in Q.
  - destruct Q as [_ [Q|[[_ [_ Q]]|[Q _]]]]; try discriminate; (eapply A; [|exact Q]; discriminate).
  - destruct Q as [_ [_ Q]]. eapply A; [|exact Q]; discriminate.
Qed.

Theorem cache_step : forall ps ms m w w' tr evs, checked ps = true ->
  run ps ms world0 = Some (w, tr) -> move ps m w = Some (w', evs) -> copying w m = false ->
  forall l n, nth_error (heap w) l = Some (Cache, n) -> nth_error (heap w') l = Some (Cache, n).
Proof.
  intros ps ms m w w' tr evs CK R M NC l n N.
  destruct (run_ok _ _ _ _ _ _ CK Inv0 R) as [hs [I _]].
  destruct (move_ok _ _ _ _ _ _ CK I M) as [hs' [[S _] [AT E]]]. rewrite NC in E.
  assert (NC' : at_o hs l Cache).
  { destruct I as [S0 _]. pose proof (sim_nth _ _ S0 l) as Q. rewrite N in Q.
    destruct (nth_error hs l) as [[o k]|] eqn:Z; try tauto.
    destruct Q as [_ [Q|[_ Q]]]; subst; exists k; auto. }
  assert (A : forall o, o <> Cache -> at_o hs' l o -> False).
  { intros o D [k A]. destruct (AT _ _ NC') as [k' B]. congruence. }
  eapply move_unwritten; eauto. intros j. split; intros H; destruct (E _ H) as [q Q]; simpl in Q.
  - destruct Q as [_ [Q|[[_ [_ Q]]|[Q _]]]]; try discriminate; (eapply A; [|exact Q]; discriminate).
  - destruct Q as [_ [_ Q]]. eapply A; [|exact Q]; discriminate.
Qed.

Theorem no_race : forall ps ms1 m ms2 w1 tr1 w2 evs w tr, checked ps = true ->
  run ps ms1 world0 = Some (w1, tr1) -> move ps m w1 = Some (w2, evs) -> copying w1 m = false ->
  run ps ms2 w2 = Some (w, tr) ->
  forall i j l, i <> j -> In (Wrote i l) evs ->
  In (Read j l) (tr1 ++ evs ++ tr) \/ In (Wrote j l) (tr1 ++ evs ++ tr) \/ In (Locked j l) (tr1 ++ evs ++ tr) ->
  l = 0 /\ ul = true.
Proof.
  intros ps ms1 m ms2 w1 tr1 w2 evs w tr CK R1 M NC R2 i j l D W O.
  destruct (run_ok _ _ _ _ _ _ CK Inv0 R1) as [h1 [I1 [_ E1]]].
  destruct (move_ok _ _ _ _ _ _ CK I1 M) as [h2 [I2 [A2 E2]]].
  destruct (run_ok _ _ _ _ _ _ CK I2 R2) as [h3 [I3 [A3 E3]]].
  rewrite NC in E2.
  assert (E : forall ev, In ev (tr1 ++ evs ++ tr)%list -> exists i, evOk true h3 i ev).
  { intros ev J. rewrite !in_app_iff in J. destruct J as [J|[J|J]].
    - destruct (E1 _ J) as [q Q]. exists q. eapply evOk_mono; [|exact Q]. auto.
    - destruct (E2 _ J) as [q Q]. exists q. eapply evOk_weak, evOk_mono; [|exact Q]. auto.
    - auto. }
  destruct (E2 _ W) as [i' Q]; simpl in Q. destruct Q as [Q0 [Q|[[Q1 [Q2 _]]|[Q _]]]]; auto; try discriminate.
  subst i'. apply A3 in Q. destruct Q as [k Q].
  exfalso. destruct O as [O|[O|O]]; destruct (E _ O) as [j' P]; simpl in P; destruct P as [P0 P]; subst j'.
  - destruct P as [o [[Z|[Z|Z]] [k' A]]]; subst o; rewrite Q in A; inversion A; congruence.
  - destruct P as [[k' A]|[[_ [_ [k' A]]]|[_ [k' A]]]]; rewrite Q in A; inversion A; congruence.
  - destruct P as [_ [k' A]]; rewrite Q in A; inversion A; congruence.
Qed.

Theorem locks : forall ps ms w tr, checked ps = true -> run ps ms world0 = Some (w, tr) ->
  forall i l, In (Locked i l) tr -> l = 2 /\ forall j, ~ In (Wrote j l) tr.
Proof.
  intros ps ms w tr CK R i l L.
  destruct (run_ok _ _ _ _ _ _ CK Inv0 R) as [hs [_ [_ E]]].
  destruct (E _ L) as [i' Q]; simpl in Q. destruct Q as [Q0 [Q1 [k Q]]]. split; auto.
  intros j W. destruct (E _ W) as [j' P]; simpl in P.
  destruct P as [_ [[k' A]|[[_ [A _]]|[_ [k' A]]]]]; [congruence|lia|congruence].
Qed.
End Checker.
