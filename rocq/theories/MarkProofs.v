(** C118: proofs. *)
Require Import Coq.ZArith.ZArith Coq.Lists.List Coq.Strings.String Coq.Bool.Bool Coq.Arith.PeanoNat Lia.
From Verif Require Import MarkModel MarkSpec.
Import ListNotations.
Open Scope string_scope.
Open Scope list_scope.
Open Scope Z_scope.

Lemma mrun_app rm w a b : mrun rm w (a ++ b) = mrun rm (mrun rm w a) b.
Proof. apply fold_left_app. Qed.
Lemma mrun_snoc rm w a op : mrun rm w (a ++ [op]) = mstep rm (mrun rm w a) op.
Proof. apply fold_left_app. Qed.
Lemma states_in rm : forall ops w a, In a (mstates rm w ops) <-> exists p q, ops = p ++ q /\ a = mrun rm w p.
Proof.
  induction ops as [|op r IH]; intros w a; split.
  - intros [<-|[]]. exists [], []. auto.
  - intros (p & q & E & ->). symmetry in E. apply app_eq_nil in E. destruct E as [-> ->]. left. reflexivity.
  - intros [<-|I]; [exists [], (op :: r); auto|]. apply IH in I. destruct I as (p & q & -> & ->). exists (op :: p), q. auto.
  - intros ([|o p] & q & E & ->); [left; reflexivity|]. injection E as -> ->. right. apply IH. exists p, q. auto.
Qed.

(* Maps. *)
Lemma look_drop a b l : look a (drop b l) = if String.eqb b a then None else look a l.
Proof.
  induction l as [|[k v] r IH]; cbn; [destruct (String.eqb b a); reflexivity|].
  destruct (String.eqb k b) eqn:E; cbn; rewrite IH.
  - apply String.eqb_eq in E. subst k. destruct (String.eqb b a); reflexivity.
  - destruct (String.eqb k a) eqn:F; [|reflexivity]. apply String.eqb_eq in F. subst k. rewrite String.eqb_sym, E. reflexivity.
Qed.
Lemma changed_right rm o : right rm (changed rm o).
Proof. unfold right, changed, put. destruct rm; cbn [o_ann look]; [rewrite look_drop|]; rewrite String.eqb_refl; reflexivity. Qed.
Lemma changed_other rm o a : a <> MarkKey -> look a (o_ann (changed rm o)) = look a (o_ann o).
Proof.
  intros N. assert (X : String.eqb MarkKey a = false) by (apply String.eqb_neq; congruence).
  unfold changed, put. destruct rm; cbn [o_ann look]; rewrite ?X, look_drop, X; reflexivity.
Qed.
Lemma stored_same w k o : stored w k (Some o) k = Some (mkOb (o_ann o) (m_next w) (o_rest o)).
Proof. unfold stored. destruct (Key_eq_dec k k); [reflexivity|contradiction]. Qed.
Lemma stored_none w k : stored w k None k = None.
Proof. unfold stored. destruct (Key_eq_dec k k); [reflexivity|contradiction]. Qed.
Lemma stored_other w k x o : x <> k -> stored w k o x = m_srv w x.
Proof. intros N. unfold stored. destruct (Key_eq_dec k x); [congruence|reflexivity]. Qed.

(* What holds in every state: the copy to be written is that of the object of its version. *)
Record Ok (rm : bool) (w : W) : Prop := {
  ok_ver : versions (m_srv w) (m_next w);
  ok_put : forall k c, m_pc w = Put k c -> (o_rv c < m_next w)%nat /\ m_hand w = Some k /\
    exists o0, c = changed rm o0 /\ forall o, m_srv w k = Some o -> o_rv o = o_rv c -> o = o0
}.
Lemma ver_stored w k o : versions (m_srv w) (m_next w) -> versions (stored w k o) (S (m_next w)).
Proof.
  intros V x b E. unfold stored in E. destruct (Key_eq_dec k x); [|apply V in E; lia].
  destruct o; [injection E as <-; cbn; lia|discriminate E].
Qed.
Lemma ok_plain rm w : versions (m_srv w) (m_next w) -> (forall k c, m_pc w <> Put k c) -> Ok rm w.
Proof. intros V N. split; [exact V|]. intros k c E. elim (N k c E). Qed.
Lemma ok_failed rm w h : versions (m_srv w) (m_next w) -> Ok rm (failed w h).
Proof. intros V. apply ok_plain; [exact V|]. cbn. intros k c. destruct (m_now w <? m_dl w); discriminate. Qed.
Lemma ok_next rm w : versions (m_srv w) (m_next w) -> Ok rm (next w).
Proof. intros V. unfold next. destruct (m_todo w); apply ok_plain; try exact V; intros ? ?; discriminate. Qed.
Lemma ok_step rm w op : Ok rm w -> Ok rm (mstep rm w op).
Proof.
  intros [V P]. destruct op as [d|x o|f]; cbn [mstep].
  - split; [exact V|]. intros k c E. destruct (P k c E) as (A & B & o0 & C & D). split; [exact A|]. split; [exact B|]. exists o0. split; [exact C|exact D].
  - split; [apply ver_stored, V|]. cbn [m_pc m_next m_hand m_srv]. intros k c E. destruct (P k c E) as (A & B & o0 & C & D).
    split; [lia|]. split; [exact B|]. exists o0. split; [exact C|]. intros o' E'. unfold stored in E'. destruct (Key_eq_dec x k); [|apply D, E'].
    destruct o; [|discriminate E']. injection E' as <-. cbn. lia.
  - unfold go. destruct (m_pc w) as [| |k c|t|e] eqn:PC.
    + destruct f; apply ok_plain; try exact V; intros ? ?; discriminate.
    + destruct (m_hand w) as [k|] eqn:H; [|apply ok_failed, V]. destruct f; try (apply ok_failed, V).
      destruct (m_srv w k) as [o|] eqn:E; [|apply ok_failed, V]. split; [exact V|]. cbn. intros k' c E'. injection E' as <- <-.
      split; [apply (V k o E)|]. split; [reflexivity|]. exists o. split; [reflexivity|]. intros o' E'. rewrite E in E'. injection E' as <-. reflexivity.
    + destruct (m_srv w k) as [o|] eqn:E; [|destruct f; apply ok_failed, V].
      destruct (Nat.eqb (o_rv o) (o_rv c)); destruct f; try (apply ok_failed, V); [apply ok_next|apply ok_failed]; apply (ver_stored w k (Some c) V).
    + destruct (t <=? m_now w); [apply ok_plain; [exact V|intros ? ?; discriminate]|split; [exact V|rewrite PC; discriminate]].
    + split; [exact V|rewrite PC; discriminate].
Qed.
Lemma ok_run rm ops : forall w, Ok rm w -> Ok rm (mrun rm w ops).
Proof. induction ops as [|op r IH]; intros w O; [exact O|]. apply IH, ok_step, O. Qed.
Lemma ok_init rm now srv v sets : versions srv v -> Ok rm (minit now srv v sets).
Proof. intros V. apply ok_next. exact V. Qed.

(* The only change to the server. *)
Lemma only_mark rm w f k : Ok rm w ->
  m_srv (mstep rm w (Go f)) k = m_srv w k \/
  exists o o', m_srv w k = Some o /\ m_srv (mstep rm w (Go f)) k = Some o' /\ o_rest o' = o_rest o /\ right rm o' /\
    (forall a, a <> MarkKey -> look a (o_ann o') = look a (o_ann o)).
Proof.
  intros [V P]. cbn [mstep]. unfold go. destruct (m_pc w) as [| |x c|t|e] eqn:PC.
  - destruct f; left; reflexivity.
  - left. destruct (m_hand w) as [y|]; [|reflexivity]. destruct f; try reflexivity. destruct (m_srv w y); reflexivity.
  - destruct (m_srv w x) as [o|] eqn:E; [|destruct f; left; reflexivity].
    destruct (Nat.eqb (o_rv o) (o_rv c)) eqn:R; [|destruct f; left; reflexivity]. apply Nat.eqb_eq in R.
    destruct (P x c eq_refl) as (_ & _ & o0 & C & D). assert (o0 = o) by (symmetry; apply D; assumption). subst o0.
    destruct f; [| left; reflexivity|].
    all: destruct (Key_eq_dec k x) as [->|N].
    2: { left. unfold next; destruct (m_todo _); cbn [m_srv goto]; apply stored_other, N. }
    3: { left. cbn [failed goto m_srv]. apply stored_other, N. }
    all: right; exists o, (mkOb (o_ann c) (m_next w) (o_rest c)); split; [exact E|].
    all: split; [unfold next; cbn [m_todo]; destruct (m_todo w); apply stored_same|]; subst c; cbn [o_rest]; split; [reflexivity|].
    all: split; [apply (changed_right rm o)|intros a N; exact (changed_other rm o a N)].
  - left. destruct (t <=? m_now w); reflexivity.
  - left. reflexivity.
Qed.

(* Without an error every set has had its mark stored. *)
Definition Had (rm : bool) (l : list W) (k : Key) : Prop := exists a o, In a l /\ m_srv a k = Some o /\ right rm o.
Definition All (rm : bool) (sets : list Key) (l : list W) (w : W) : Prop :=
  forall k, In k sets -> Had rm l k \/ In k (m_todo w) \/
    (match m_pc w with End false => False | End true => True | _ => m_hand w = None \/ m_hand w = Some k end).
Lemma had_more rm l m k : incl l m -> Had rm l k -> Had rm m k.
Proof. intros I (a & o & A & B). exists a, o. split; [apply I, A|exact B]. Qed.
Lemma all_step rm sets l w op : Ok rm w -> All rm sets l w -> All rm sets (l ++ [mstep rm w op]) (mstep rm w op).
Proof.
  intros O A k I. assert (IN : incl l (l ++ [mstep rm w op])) by apply incl_appl, incl_refl.
  destruct (A k I) as [H|H]; [left; exact (had_more _ _ _ _ IN H)|].
  destruct op as [d|x o|f]; [right; exact H|right; exact H|].
  destruct O as [V P]. cbn [mstep]. unfold go. destruct (m_pc w) as [| |x c|t|e] eqn:PC.
  - right. destruct H as [H|H]; [left; destruct f; exact H|]. right. destruct f; cbn; auto.
  - right. assert (G : In k (m_todo w) \/ True) by auto.
    assert (F : forall h, In k (m_todo (failed w h)) \/ match m_pc (failed w h) with End false => False | End true => True | _ => m_hand (failed w h) = None \/ m_hand (failed w h) = Some k end \/ h <> None).
    { intros h. right. cbn. destruct h; [right; discriminate|]. left. destruct (m_now w <? m_dl w); auto. }
    assert (F0 : In k (m_todo (failed w None)) \/ match m_pc (failed w None) with End false => False | End true => True | _ => m_hand (failed w None) = None \/ m_hand (failed w None) = Some k end).
    { destruct (F None) as [X|[X|X]]; auto. congruence. }
    destruct (m_hand w) as [y|] eqn:HD; [|exact F0]. destruct f; try exact F0. destruct (m_srv w y) as [o|]; [|exact F0].
    cbn. destruct H as [H|[H|H]]; [left; exact H|discriminate H|right; right; exact H].
  - destruct (P x c eq_refl) as (_ & HD & o0 & C & D).
    assert (F : forall u, m_todo u = m_todo w -> (m_hand u = Some x \/ m_hand u = m_hand w) -> In k (m_todo (failed u (if rm then None else m_hand u))) \/
      match m_pc (failed u (if rm then None else m_hand u)) with End false => False | End true => True | _ => m_hand (failed u (if rm then None else m_hand u)) = None \/ m_hand (failed u (if rm then None else m_hand u)) = Some k end).
    { intros u T HU. cbn. destruct H as [H|[H|H]]; [left; rewrite T; exact H|congruence|]. right. destruct (m_now u <? m_dl u); [|exact Logic.I].
      destruct rm; [left; reflexivity|right]. destruct HU as [HU|HU]; congruence. }
    destruct (m_srv w x) as [o|] eqn:E; [|right; destruct f; apply (F w); auto].
    destruct (Nat.eqb (o_rv o) (o_rv c)) eqn:R; [|right; destruct f; apply (F w); auto].
    destruct f; [|right; apply (F w); auto|right; apply (F (mkW (stored w x (Some c)) (m_hand w) (m_todo w) (m_pc w) (m_now w) (m_dl w) (m_since w) (S (m_next w)))); auto].
    destruct H as [H|[H|H]]; [|congruence|].
    + right. unfold next. cbn [m_todo]. destruct (m_todo w) as [|y r]; [destruct H|]. cbn. destruct H as [->|H]; auto.
    + left. assert (k = x) by congruence. subst x. eexists. exists (mkOb (o_ann c) (m_next w) (o_rest c)).
      split; [apply in_or_app; right; left; reflexivity|]. split.
      * unfold next. cbn [m_todo]. destruct (m_todo w); apply stored_same.
      * subst c. apply (changed_right rm o0).
  - right. destruct (t <=? m_now w); [exact H|]. rewrite PC. exact H.
  - right. rewrite PC. exact H.
Qed.
Lemma all_run rm sets : forall ops l w, Ok rm w -> All rm sets l w -> All rm sets (l ++ tl (mstates rm w ops)) (mrun rm w ops).
Proof.
  induction ops as [|op r IH]; intros l w O A; cbn [mstates tl mrun fold_left]; [rewrite app_nil_r; exact A|].
  specialize (IH (l ++ [mstep rm w op]) (mstep rm w op) (ok_step rm w op O) (all_step rm sets l w op O A)).
  rewrite <- app_assoc in IH. unfold mrun in IH. destruct r as [|o r]; exact IH.
Qed.
Lemma all_marked rm now srv v sets ops : versions srv v -> m_pc (mrun rm (minit now srv v sets) ops) = End false ->
  forall k, In k sets -> Had rm (mstates rm (minit now srv v sets) ops) k.
Proof.
  intros V E k I. set (w := minit now srv v sets) in *.
  assert (A : All rm sets [w] w).
  { intros x J. right. unfold w, minit, next. cbn [m_todo]. destruct sets as [|y r]; [destruct J|]. cbn. destruct J as [->|J]; auto. }
  pose proof (all_run rm sets ops [w] w (ok_init rm now srv v sets V) A) as B.
  assert (X : [w] ++ tl (mstates rm w ops) = mstates rm w ops) by (destruct ops; reflexivity). rewrite X in B.
  destruct (B k I) as [H|[H|H]]; [exact H| |rewrite E in H; destruct H].
  exfalso. assert (T : forall ops w, (forall e, m_pc w = End e -> e = false -> m_todo w = []) -> forall e, m_pc (mrun rm w ops) = End e -> e = false -> m_todo (mrun rm w ops) = []).
  { clear. induction ops as [|op r IH]; intros w Z; [exact Z|]. apply IH. clear IH r. intros e. destruct op as [d|x o|f]; cbn [mstep]; [exact (Z e)|exact (Z e)|].
    assert (F : forall u h, m_pc (failed u h) = End e -> e = false -> m_todo (failed u h) = []).
    { intros u h. cbn. destruct (m_now u <? m_dl u); [discriminate|]. intros Q; injection Q as <-; discriminate. }
    unfold go. destruct (m_pc w) as [| |x c|t|b] eqn:PC.
    - destruct f; cbn; try discriminate; intros Q; injection Q as <-; discriminate.
    - destruct (m_hand w) as [k|]; [|apply F]. destruct f; try apply F. destruct (m_srv w k); [cbn; discriminate|apply F].
    - destruct (match m_srv w x with Some o => _ | None => _ end); destruct f; try apply F. unfold next. cbn [m_todo].
      destruct (m_todo w) eqn:TD; cbn; [auto|discriminate].
    - destruct (t <=? m_now w); [cbn; discriminate|]. rewrite PC. discriminate.
    - rewrite PC. apply Z. }
  rewrite (T ops w) with (e := false) in H; [destruct H| |exact E|reflexivity].
  unfold w, minit, next. cbn [m_todo]. destruct sets; cbn; [auto|discriminate].
Qed.

(* How many requests there can be. *)
Definition tries (dl n : Z) : Z := 1 + Z.max 0 ((dl - n + 4999) / 5000).
Definition budget (w : W) : Z :=
  26 * Z.of_nat (List.length (m_todo w)) +
  match m_pc w with
  | Begin => 26
  | Get => 2 * tries (m_dl w) (m_now w)
  | Put _ _ => 2 * tries (m_dl w) (m_now w) - 1
  | Sleep t => 2 * tries (m_dl w) (Z.max t (m_now w))
  | End _ => 0
  end.
Lemma tries_one dl n : 1 <= tries dl n.
Proof. unfold tries. lia. Qed.
Lemma tries_mono dl a b : a <= b -> tries dl b <= tries dl a.
Proof. intros L. unfold tries. assert ((dl - b + 4999) / 5000 <= (dl - a + 4999) / 5000) by (apply Z.div_le_mono; lia). lia. Qed.
Lemma tries_next dl n : n < dl -> tries dl (n + Interval) = tries dl n - 1.
Proof.
  intros L. unfold tries, Interval. replace (dl - n + 4999) with ((dl - (n + 5000) + 4999) + 1 * 5000) by lia. rewrite Z.div_add by lia.
  assert (0 <= (dl - (n + 5000) + 4999) / 5000) by (apply Z.div_pos; lia). lia.
Qed.
Lemma tries_start n : tries (n + Deadline) n = 13.
Proof. unfold tries, Deadline. replace (n + 60000 - n + 4999) with 64999 by lia. reflexivity. Qed.
Lemma budget_failed w h c : 0 <= c <= 1 -> c + budget (failed w h) <= 26 * Z.of_nat (List.length (m_todo w)) + 2 * tries (m_dl w) (m_now w) - 1.
Proof.
  intros C. unfold budget, failed, goto. cbn [m_todo m_pc m_dl m_now]. pose proof (tries_one (m_dl w) (m_now w)). destruct (m_now w <? m_dl w) eqn:L; [|lia].
  apply Z.ltb_lt in L. rewrite Z.max_l by (unfold Interval; lia). rewrite tries_next by exact L. lia.
Qed.
Lemma budget_pos w : 0 <= budget w.
Proof.
  unfold budget. destruct (m_pc w); try lia; [pose proof (tries_one (m_dl w) (m_now w))|pose proof (tries_one (m_dl w) (m_now w))|pose proof (tries_one (m_dl w) (Z.max till (m_now w)))]; lia.
Qed.
Lemma budget_step rm w op :
  (match op with Go _ => if request w then 1 else 0 | _ => 0 end) + budget (mstep rm w op) <= budget w.
Proof.
  destruct op as [d|x o|f]; cbn [mstep].
  - unfold budget. cbn [m_todo m_pc m_now m_dl]. destruct (m_pc w); try lia.
    + pose proof (tries_mono (m_dl w) (m_now w) (m_now w + Z.max 0 d)). lia.
    + pose proof (tries_mono (m_dl w) (m_now w) (m_now w + Z.max 0 d)). lia.
    + pose proof (tries_mono (m_dl w) (Z.max till (m_now w)) (Z.max till (m_now w + Z.max 0 d))). lia.
  - unfold budget. cbn. lia.
  - unfold request, go. destruct (m_pc w) as [| |x c|t|e] eqn:PC.
    + unfold budget. rewrite PC. destruct f; cbn [m_todo m_pc goto m_dl m_now]; rewrite ?tries_start; lia.
    + assert (B : budget w = 26 * Z.of_nat (List.length (m_todo w)) + 2 * tries (m_dl w) (m_now w)) by (unfold budget; rewrite PC; lia).
      rewrite B. pose proof (budget_failed w None) as F.
      destruct (m_hand w) as [k|]; [|specialize (F 0); lia]. destruct f; try (specialize (F 1); lia). destruct (m_srv w k); [|specialize (F 1); lia].
      unfold budget. cbn [m_todo m_pc goto m_dl m_now]. lia.
    + assert (B : budget w = 26 * Z.of_nat (List.length (m_todo w)) + 2 * tries (m_dl w) (m_now w) - 1) by (unfold budget; rewrite PC; lia).
      rewrite B. set (w' := mkW (stored w x (Some c)) (m_hand w) (m_todo w) (Put x c) (m_now w) (m_dl w) (m_since w) (S (m_next w))).
      pose proof (budget_failed w (if rm then None else m_hand w) 1). pose proof (budget_failed w' (if rm then None else m_hand w) 1) as H'. cbn [w' m_todo m_dl m_now] in H'.
      assert (N : 1 + budget (next w') <= 26 * Z.of_nat (List.length (m_todo w)) + 2 * tries (m_dl w) (m_now w) - 1).
      { pose proof (tries_one (m_dl w) (m_now w)). unfold next. cbn [w' m_todo]. destruct (m_todo w) as [|y r]; unfold budget; cbn [goto m_todo m_pc w']; rewrite ?(eq_refl : List.length (y :: r) = S (List.length r)); cbn [List.length]; lia. }
      destruct (match m_srv w x with Some o => _ | None => _ end); destruct f; lia.
    + destruct (Z.leb_spec t (m_now w)); [|lia]. unfold budget. rewrite PC. cbn [goto m_todo m_pc m_dl m_now]. rewrite Z.max_r by lia. lia.
    + lia.
Qed.
Lemma requests_le rm : forall ops w, Z.of_nat (requests rm w ops) <= budget w.
Proof.
  induction ops as [|op r IH]; intros w; [apply budget_pos|]. cbn [requests]. specialize (IH (mstep rm w op)). pose proof (budget_step rm w op) as S.
  destruct op; try lia. destruct (request w); lia.
Qed.
Lemma requests_few rm now srv v sets ops : (requests rm (minit now srv v sets) ops <= 26 * List.length sets)%nat.
Proof.
  pose proof (requests_le rm ops (minit now srv v sets)) as H. assert (budget (minit now srv v sets) = 26 * Z.of_nat (List.length sets)); [|lia].
  unfold minit, next. cbn [m_todo]. destruct sets; unfold budget; cbn [goto m_todo m_pc List.length]; lia.
Qed.

(* How long it takes. *)
Section Time.
Variables (rm : bool) (d now0 : Z).
Hypothesis D0 : 0 <= d.
Definition per : Z := 65000 + 4 * d.
Definition Within (n : nat) (w : W) : Prop :=
  m_since w <= m_now w /\
  exists i, (i + List.length (m_todo w) <= n)%nat /\
  match m_pc w with
  | End _ => True
  | Begin => (i < n)%nat /\ (i + S (List.length (m_todo w)) <= n)%nat /\ m_since w <= now0 + Z.of_nat i * per
  | _ => (i + S (List.length (m_todo w)) <= n)%nat /\ m_dl w <= now0 + Z.of_nat i * per + d + 60000 /\
         match m_pc w with
         | Get => m_since w <= m_dl w + 5000 + d
         | Put _ _ => m_since w <= m_dl w + 5000 + 2 * d
         | Sleep t => t <= m_dl w + 5000 /\ m_since w <= t
         | _ => True
         end
  end.
Lemma within_failed n w h i : (i + S (List.length (m_todo w)) <= n)%nat -> m_dl w <= now0 + Z.of_nat i * per + d + 60000 -> Within n (failed w h).
Proof.
  intros A B. split; [cbn [m_pc m_todo m_dl m_since m_now m_hand failed goto]; lia|]. exists i. cbn [m_pc m_todo m_dl m_since m_now m_hand failed goto]. split; [lia|]. destruct (Z.ltb_spec (m_now w) (m_dl w)); [|exact Logic.I]. unfold Interval. lia.
Qed.
Lemma within_step n w op : Within n w -> prompt d w -> Within n (mstep rm w op).
Proof.
  intros (S0 & i & L & H) P. destruct op as [t|x o|f]; cbn [mstep].
  - split; [cbn [m_pc m_todo m_dl m_since m_now m_hand failed goto]; lia|]. exists i. split; [exact L|exact H].
  - split; [exact S0|]. exists i. split; [exact L|exact H].
  - unfold go, prompt in *. destruct (m_pc w) as [| |x c|t|e] eqn:PC.
    + destruct H as (A & B & C). assert (0 < per) by (unfold per; lia). destruct f.
      * split; [cbn [m_pc m_todo m_dl m_since m_now m_hand failed goto]; lia|]. exists i. cbn [m_pc m_todo m_dl m_since m_now m_hand failed goto]. unfold Deadline. lia.
      * split; [cbn [m_pc m_todo m_dl m_since m_now m_hand failed goto]; lia|]. exists i. cbn [m_pc m_todo m_dl m_since m_now m_hand failed goto]. auto.
      * split; [cbn [m_pc m_todo m_dl m_since m_now m_hand failed goto]; lia|]. exists i. cbn [m_pc m_todo m_dl m_since m_now m_hand failed goto]. auto.
    + destruct H as (A & B & C). pose proof (within_failed n w None i A B) as F.
      destruct (m_hand w) as [k|]; [|exact F]. destruct f; try exact F. destruct (m_srv w k) as [o|]; [|exact F].
      split; [cbn [m_pc m_todo m_dl m_since m_now m_hand failed goto]; lia|]. exists i. cbn [m_pc m_todo m_dl m_since m_now m_hand failed goto]. lia.
    + destruct H as (A & B & C). pose proof (fun h => within_failed n w h i A B) as F.
      pose proof (fun h => within_failed n (mkW (stored w x (Some c)) (m_hand w) (m_todo w) (Put x c) (m_now w) (m_dl w) (m_since w) (S (m_next w))) h i A B) as F'.
      destruct (match m_srv w x with Some o => _ | None => _ end); destruct f; try apply F; try apply F'.
      split; [unfold next; cbn [m_todo]; destruct (m_todo w); cbn [m_pc m_todo m_dl m_since m_now m_hand failed goto]; lia|]. exists (S i). unfold next. cbn [m_todo]. destruct (m_todo w) as [|y r]; cbn [goto m_todo m_pc m_since List.length] in *; [lia|].
      split; [lia|]. split; [lia|]. split; [lia|]. cbn [m_now]. rewrite Nat2Z.inj_succ. unfold per in *. lia.
    + destruct H as (A & B & C). destruct (Z.leb_spec t (m_now w)).
      * split; [cbn [m_pc m_todo m_dl m_since m_now m_hand failed goto]; lia|]. exists i. cbn [m_pc m_todo m_dl m_since m_now m_hand failed goto]. lia.
      * split; [exact S0|]. exists i. rewrite PC. lia.
    + split; [exact S0|]. exists i. rewrite PC. auto.
Qed.
Lemma within_run n : forall ops w, Within n w -> Forall (prompt d) (mstates rm w ops) -> Within n (mrun rm w ops).
Proof.
  induction ops as [|op r IH]; intros w H F; [exact H|]. inversion F as [|? ? P Q]; subst. apply IH; [apply within_step; assumption|exact Q].
Qed.
End Time.
Lemma last_prompt rm d ops : forall w, Forall (prompt d) (mstates rm w ops) -> prompt d (mrun rm w ops).
Proof.
  intros w F. rewrite Forall_forall in F. apply F, states_in. exists ops, []. rewrite app_nil_r. auto.
Qed.
Lemma in_time rm d now srv v sets ops : 0 <= d ->
  let w := mrun rm (minit now srv v sets) ops in
  Forall (prompt d) (mstates rm (minit now srv v sets) ops) ->
  now + Z.of_nat (List.length sets) * (65000 + 4 * d) < m_now w -> exists e, m_pc w = End e.
Proof.
  intros D w F L. assert (I : Within d now (List.length sets) (minit now srv v sets)).
  { unfold minit, next. cbn [m_todo]. destruct sets as [|k r]; (split; [cbn; lia|]); exists 0%nat; cbn; [auto|]. lia. }
  pose proof (within_run rm d now D _ ops _ I F) as (S0 & i & A & H). pose proof (last_prompt rm d ops _ F) as P. fold w in H, P, S0, A.
  unfold prompt in P. destruct (m_pc w) as [| |x c|t|e]; [| | | |exists e; reflexivity]; exfalso.
  all: assert (X : Z.of_nat i * per d + per d <= Z.of_nat (List.length sets) * per d)
    by (destruct H as (H & H' & _); replace (Z.of_nat i * per d + per d) with (Z.of_nat (S i) * per d) by lia; apply Z.mul_le_mono_nonneg_r; unfold per; lia).
  all: unfold per in *; lia.
Qed.

(* Once the object in hand is the empty one, nothing works any more. *)
Definition lost (w : W) : Prop := m_hand w = None /\ match m_pc w with Get | Sleep _ | End true => True | _ => False end.
Lemma lost_step rm w op : lost w -> lost (mstep rm w op).
Proof.
  intros [H P]. destruct op as [d|x o|f]; cbn [mstep]; try (split; assumption). unfold go. destruct (m_pc w) as [| |x c|t|[|]] eqn:PC; try contradiction.
  - rewrite H. split; [reflexivity|]. cbn. destruct (m_now w <? m_dl w); exact Logic.I.
  - destruct (t <=? m_now w); split; cbn; auto. now rewrite PC.
  - split; [exact H|]. now rewrite PC.
Qed.
Lemma lost_run rm ops : forall w, lost w -> lost (mrun rm w ops).
Proof. induction ops as [|op r IH]; intros w L; [exact L|]. apply IH, lost_step, L. Qed.
Lemma lost_srv rm w f : lost w -> m_srv (mstep rm w (Go f)) = m_srv w /\ request w = false.
Proof.
  intros [H P]. unfold request. cbn [mstep]. unfold go. destruct (m_pc w) as [| |x c|t|[|]] eqn:PC; try contradiction.
  - rewrite H. auto.
  - destruct (t <=? m_now w); auto.
  - auto.
Qed.
Lemma lost_dl rm w op : lost w -> (m_pc w = End true -> m_dl w <= m_now w) ->
  m_dl (mstep rm w op) = m_dl w /\ (m_pc (mstep rm w op) = End true -> m_dl w <= m_now (mstep rm w op)).
Proof.
  intros [H P] E. destruct op as [d|x o|f]; cbn [mstep].
  - split; [reflexivity|]. cbn. intros Q. specialize (E Q). lia.
  - split; [reflexivity|]. exact E.
  - unfold go. destruct (m_pc w) as [| |x c|t|[|]] eqn:PC; try contradiction.
    + rewrite H. split; [reflexivity|]. cbn. destruct (Z.ltb_spec (m_now w) (m_dl w)); [discriminate|auto].
    + destruct (t <=? m_now w); (split; [reflexivity|]); cbn; [discriminate|]. rewrite PC. discriminate.
    + split; [reflexivity|]. rewrite PC. exact E.
Qed.
Lemma lost_until rm ops : forall w, lost w -> (m_pc w = End true -> m_dl w <= m_now w) ->
  m_pc (mrun rm w ops) = End true -> m_dl w <= m_now (mrun rm w ops).
Proof.
  induction ops as [|op r IH]; intros w L E Q; [exact (E Q)|]. destruct (lost_dl rm w op L E) as [A B].
  rewrite <- A. apply IH; [apply lost_step, L|rewrite A; exact B|exact Q].
Qed.
(* A failed read makes it so, and with [rm] a failed update, too. *)
Lemma fails_lost rm w f : (m_pc w = Get /\ f <> Fine) \/ (m_pc w = Get /\ exists k, m_hand w = Some k /\ m_srv w k = None) \/
    (rm = true /\ exists k c, m_pc w = Put k c /\ (f <> Fine \/ forall o, m_srv w k = Some o -> o_rv o <> o_rv c)) ->
  lost (mstep rm w (Go f)).
Proof.
  assert (F : forall u, lost (failed u None)) by (intros u; split; [reflexivity|]; cbn; destruct (m_now u <? m_dl u); exact Logic.I).
  cbn [mstep]. unfold go. intros [[P N]|[[P (k & H & S)]|(-> & k & c & P & N)]]; rewrite P.
  - destruct (m_hand w); [|apply F]. destruct f; try apply F. congruence.
  - rewrite H. destruct f; try apply F. rewrite S. apply F.
  - destruct (m_srv w k) as [o|] eqn:E; [|destruct f; apply F]. destruct (Nat.eqb (o_rv o) (o_rv c)) eqn:R; [|destruct f; apply F].
    destruct f; try apply F. destruct N as [N|N]; [congruence|]. apply Nat.eqb_eq in R. elim (N o eq_refl R).
Qed.

(* Setting the mark: conflicts are overcome. *)
Section Calm.
Variables (d s now0 : Z) (k : Key).
Hypothesis D0 : 0 <= d.
Hypothesis S1 : s + 2 * d < now0 + 60000.
Hypothesis S2 : 0 <= s - now0.
(* After [s]: at most one more failure, of an update that began before. *)
Definition Calm (w : W) : Prop :=
  m_since w <= m_now w /\ m_todo w = [] /\ m_hand w = Some k /\ now0 <= m_since w /\ (exists o, m_srv w k = Some o) /\
  match m_pc w with
  | Begin => m_since w = now0
  | Get => now0 + 60000 <= m_dl w /\ m_since w <= s + 3 * d + 5000
  | Put x c => now0 + 60000 <= m_dl w /\ x = k /\ m_since w <= s + 4 * d + 5000 /\
               (s <= m_since w -> exists o, m_srv w k = Some o /\ o_rv o = o_rv c)
  | Sleep t => now0 + 60000 <= m_dl w /\ t <= s + 2 * d + 5000 /\ m_since w <= t
  | End true => False
  | End false => exists o, m_srv w k = Some o /\ (s <= m_since w \/ True)
  end.
Lemma calm_step w op : Ok false w -> Calm w -> prompt d w -> calm k s w op -> Calm (mstep false w op).
Proof.
  intros O (T & TD & H & N & (o & E) & P) Q C. destruct op as [t|x b|f]; cbn [mstep].
  - split; [cbn [m_pc m_todo m_dl m_since m_now m_hand m_srv failed goto]; lia|]. cbn [m_pc m_todo m_dl m_since m_now m_hand m_srv failed goto]. split; [exact TD|]. split; [exact H|]. split; [exact N|]. split; [exists o; exact E|exact P].
  - cbn in C. destruct C as [C1 C2]. assert (E' : exists o', stored w x b k = Some o').
    { destruct (Key_eq_dec k x) as [<-|NE]; [|rewrite stored_other by exact NE; eauto]. destruct b as [b|]; [rewrite stored_same; eauto|]. elim (C2 eq_refl eq_refl). }
    split; [exact T|]. split; [exact TD|]. split; [exact H|]. split; [exact N|]. split; [exact E'|]. cbn [m_pc m_since m_dl m_srv]. destruct (m_pc w) as [| |y c|t|[|]] eqn:PC; auto.
    + destruct P as (P1 & P2 & P3 & P4). split; [exact P1|]. split; [exact P2|]. split; [exact P3|]. intros L. lia.
    + destruct E' as [o' E']. exists o'. auto.
  - unfold go, prompt, calm in *. destruct (m_pc w) as [| |x c|t|[|]] eqn:PC.
    + rewrite C. split; [cbn [m_pc m_todo m_dl m_since m_now m_hand m_srv failed goto]; lia|]. cbn [m_pc m_todo m_dl m_since m_now m_hand m_srv failed goto]. split; [exact TD|]. split; [exact H|]. split; [lia|]. split; [exists o; exact E|]. unfold Deadline. lia.
    + rewrite H, C, E. split; [cbn [m_pc m_todo m_dl m_since m_now m_hand m_srv failed goto]; lia|]. cbn [m_pc m_todo m_dl m_since m_now m_hand m_srv failed goto]. split; [exact TD|]. split; [reflexivity|]. split; [lia|]. split; [exists o; exact E|].
      split; [lia|]. split; [reflexivity|]. split; [lia|]. intros _. exists o. auto.
    + destruct P as (P1 & -> & P3 & P4). rewrite E.
      assert (F : forall u, m_todo u = [] -> (exists o, m_srv u k = Some o) -> m_now u = m_now w -> m_dl u = m_dl w -> m_now w < s + 2 * d + 1 -> Calm (failed u (m_hand w))).
      { intros u U1 U2 U3 U4 U5. split; [cbn [m_pc m_todo m_dl m_since m_now m_hand m_srv failed goto]; lia|]. cbn [m_pc m_todo m_dl m_since m_now m_hand m_srv failed goto]. rewrite U3, U4. split; [exact U1|]. split; [exact H|]. split; [lia|]. split; [exact U2|].
        assert (X : (m_now w <? m_dl w) = true) by (apply Z.ltb_lt; lia). rewrite X. unfold Interval. lia. }
      destruct (Z_lt_le_dec (m_now w) s) as [L|L].
      * destruct (Nat.eqb (o_rv o) (o_rv c)); destruct f; try (apply F; [exact TD|exists o; exact E|reflexivity|reflexivity|lia]).
        -- unfold next. cbn [m_todo]. rewrite TD. split; [cbn [m_pc m_todo m_dl m_since m_now m_hand m_srv failed goto]; lia|]. cbn [m_pc m_todo m_dl m_since m_now m_hand m_srv failed goto]. rewrite stored_same. split; [first [exact TD|reflexivity]|]. split; [exact H|]. split; [lia|]. split; eauto.
        -- apply (F (mkW (stored w k (Some c)) (m_hand w) (m_todo w) (Put k c) (m_now w) (m_dl w) (m_since w) (S (m_next w)))); cbn [m_todo m_srv m_now m_dl]; try lia; auto. rewrite stored_same. eauto.
      * rewrite (C L). destruct (Nat.eqb (o_rv o) (o_rv c)) eqn:R.
        -- unfold next. cbn [m_todo]. rewrite TD. split; [cbn [m_pc m_todo m_dl m_since m_now m_hand m_srv failed goto]; lia|]. cbn [m_pc m_todo m_dl m_since m_now m_hand m_srv failed goto]. rewrite stored_same. split; [first [exact TD|reflexivity]|]. split; [exact H|]. split; [lia|]. split; eauto.
        -- apply F; auto; [exists o; exact E|]. destruct (Z_lt_le_dec (m_since w) s) as [M|M]; [lia|]. destruct (P4 M) as (o' & E' & R'). rewrite E in E'. injection E' as <-. apply Nat.eqb_neq in R. contradiction.
    + destruct (Z.leb_spec t (m_now w)).
      * split; [cbn [m_pc m_todo m_dl m_since m_now m_hand m_srv failed goto]; lia|]. cbn [m_pc m_todo m_dl m_since m_now m_hand m_srv failed goto]. split; [exact TD|]. split; [exact H|]. split; [lia|]. split; [exists o; exact E|]. lia.
      * split; [exact T|]. split; [exact TD|]. split; [exact H|]. split; [exact N|]. split; [exists o; exact E|]. rewrite PC. lia.
    + contradiction.
    + split; [exact T|]. split; [exact TD|]. split; [exact H|]. split; [exact N|]. split; [exists o; exact E|]. rewrite PC. exact P.
Qed.
Lemma calm_run : forall ops w, Ok false w -> Calm w -> Forall (prompt d) (mstates false w ops) -> calmly false k s w ops -> Calm (mrun false w ops).
Proof.
  induction ops as [|op r IH]; intros w O C F K; [exact C|]. inversion F as [|? ? P Q]; subst. destruct K as [K1 K2].
  apply IH; [apply ok_step, O|apply calm_step; assumption|exact Q|exact K2].
Qed.
End Calm.
Lemma overcome d s now srv v k ops : 0 <= d -> now <= s -> s + 2 * d < now + 60000 -> versions srv v -> (exists o, srv k = Some o) ->
  let w := mrun false (minit now srv v [k]) ops in
  Forall (prompt d) (mstates false (minit now srv v [k]) ops) -> calmly false k s (minit now srv v [k]) ops ->
  m_pc w <> End true /\ (s + 5 * d + 5000 < m_now w -> m_pc w = End false).
Proof.
  intros D S2 S1 V E w F K.
  assert (I : Calm d s now k (minit now srv v [k])).
  { split; [cbn; lia|]. cbn. split; [reflexivity|]. split; [reflexivity|]. split; [lia|]. split; [exact E|reflexivity]. }
  pose proof (calm_run d s now k D S1 ltac:(lia) ops _ (ok_init false now srv v [k] V) I F K) as (T & _ & _ & N & _ & P).
  pose proof (last_prompt false d ops _ F) as Q. fold w in T, N, P, Q. unfold prompt in Q.
  destruct (m_pc w) as [| |x c|t|[|]]; (split; [try discriminate; try contradiction|]); intros L; try reflexivity; try contradiction; exfalso; lia.
Qed.
