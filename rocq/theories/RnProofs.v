(** The patched process and the program with replaced functions. *)
From Coq Require Import ZArith List Bool Lia ZifyBool ZifyNat.
From Verif Require Import Word RnSpec.
Import ListNotations.
Open Scope Z_scope.

Lemma write_out w : forall m x, (forall b, ~ In (x, b) w) -> write m w x = m x.
Proof.
  induction w as [|[a b] w IH]; intros m x H; [reflexivity|]. cbn [write]. rewrite IH.
  - destruct (Z.eqb_spec x a); [subst; exfalso; apply (H b); left; reflexivity|reflexivity].
  - intros c Hc. apply (H c). right. exact Hc.
Qed.

Lemma write_same w : forall m m' x, m x = m' x -> write m w x = write m' w x.
Proof.
  induction w as [|[a b] w IH]; intros m m' x H; [exact H|]. cbn [write]. apply IH. destruct (x =? a); auto.
Qed.

Lemma runs_app M st s1 s2 : runs M st (s1 ++ s2) = match runs M st s1 with Some st' => runs M st' s2 | None => None end.
Proof. revert st. induction s1 as [|i s1 IH]; intros st; [reflexivity|]. cbn [app runs]. destruct (turn M st i); [apply IH|reflexivity]. Qed.

Lemma replaced_in R f t : replaced R f = Some t -> In (f, t) R.
Proof.
  induction R as [|[g u] R IH]; [discriminate|]. cbn [replaced]. destruct (Z.eqb_spec f g).
  - intros H. assert (t = u) by congruence. subst. left. reflexivity.
  - intros H. right. auto.
Qed.

Section Sim.
Variables (M : machine) (j : Z) (k : nat) (mid : nat -> cpu M -> Z -> cpu M) (R : list (Z * Z)) (Bs : Z -> Prop).
Hypothesis L : local M.
Hypothesis En : enters M j k mid.
Hypothesis Rg : forall f t, In (f, t) R -> 0 <= f /\ f + 16 <= 2 ^ 64 /\ 0 <= t < 2 ^ 64.

Hypothesis Cov : forall x, covered R x -> Bs x.

Definition jumps_in (m : mem) : Prop := forall f t, replaced R f = Some t -> jump_at m f j t.

Definition sim (st st' : threads M * mem) : Prop :=
  same_process M R Bs k mid st st' /\ jumps_in (snd st) /\ respects M R Bs st'.

Lemma respects_next st i st1 : respects M R Bs st -> turn_replaced M R st i = Some st1 -> respects M R Bs st1.
Proof. intros H T sch st' H'. apply (H (i :: sch)). cbn [runs_replaced]. rewrite T. exact H'. Qed.

(** One instruction of the process: none or one turn of the program. *)
Lemma sim_turn st st' i : sim st st' ->
  match turn M st i with
  | Some st1 => ((1 < k)%nat /\ sim st1 st') \/ exists st1', turn_replaced M R st' i = Some st1' /\ sim st1 st1'
  | None => turn_replaced M R st' i = None
  end.
Proof.
  intros ((Th & Mm) & J & C). destruct st as [ths m], st' as [ths' m']. cbn [fst snd] in *.
  assert (Upd : forall s s', same_thread M R k mid s s' -> forall q, same_thread M R k mid (set_thread ths i s q) (set_thread ths' i s' q)).
  { intros s s' H q. unfold set_thread. destruct (Nat.eqb q i); auto. }
  assert (Upl : forall s, same_thread M R k mid s (ths' i) -> forall q, same_thread M R k mid (set_thread ths i s q) (ths' q)).
  { intros s H q. unfold set_thread. destruct (Nat.eqb_spec q i); [subst; auto|auto]. }
  unfold turn. cbn [fst snd]. destruct (Th i) as [E|(n & s0 & t & Hn & Hr & Es & Es')].
  - destruct (replaced R (pc M (ths' i))) as [t|] eqn:Er.
    + (* at the function *)
      assert (Hi := replaced_in _ _ _ Er). destruct (Rg _ _ Hi) as (R1 & R2 & R3). pose proof (J _ _ Er) as Ja.
      pose proof (en_step _ _ _ _ En O m (ths' i) t (en_some _ _ _ _ En) R3 R1 R2 Ja) as X. rewrite (en_first _ _ _ _ En) in X.
      rewrite E, X. cbn [write].
      assert (T : turn_replaced M R (ths', m') i = Some (set_thread ths' i (go M (ths' i) t), m')) by (unfold turn_replaced; cbn [fst snd]; rewrite Er; reflexivity).
      right. eexists. split; [exact T|]. split; [|split; [exact J|exact (respects_next _ _ _ C T)]]. split; [|exact Mm]. cbn [fst snd].
      apply Upd. destruct (Nat.eq_dec 1 k) as [<-|Nk]; [left; apply (en_last _ _ _ _ En)|].
      right. exists 1%nat, (ths' i), t. split; [pose proof (en_some _ _ _ _ En); lia|]. auto.
    + (* elsewhere *)
      destruct (C [] (ths', m') eq_refl i Er) as [Lk Wr]. cbn [fst snd] in Lk, Wr.
      assert (X : exec M m (ths' i) = exec M m' (ths' i)) by (apply L; intros x Hx; apply Mm, Lk, Hx).
      rewrite E, X. unfold turn_replaced, turn. cbn [fst snd]. rewrite Er. destruct (exec M m' (ths' i)) as [[s w]|] eqn:Ex; [|reflexivity].
      right. eexists. split; [reflexivity|]. split; [|split].
      * split; cbn [fst snd]; [apply Upd; left; reflexivity|]. intros x Hx. apply write_same. auto.
      * intros f t Hf i0 Hi. cbn [snd]. rewrite write_out; [apply (J f t Hf i0 Hi)|]. intros b Hb. apply (Wr s w eq_refl _ _ Hb). apply Cov.
        exists f, t. split; [apply replaced_in; exact Hf|lia].
      * apply (respects_next (ths', m') i); auto. unfold turn_replaced, turn. cbn [fst snd]. rewrite Er, Ex. reflexivity.
  - (* inside the jump *)
    assert (Hi := replaced_in _ _ _ Hr). destruct (Rg _ _ Hi) as (R1 & R2 & R3). pose proof (J _ _ Hr) as Ja.
    pose proof (en_step _ _ _ _ En n m s0 t (proj2 Hn) R3 R1 R2 Ja) as X. rewrite Es, X. cbn [write]. left. split; [lia|].
    split; [|split; [exact J|exact C]]. split; [|exact Mm]. cbn [fst snd]. apply Upl. rewrite Es'.
    destruct (Nat.eq_dec (S n) k) as [Ek|Nk]; [left; rewrite Ek; apply (en_last _ _ _ _ En)|].
    right. exists (S n), s0, t. split; [lia|]. auto.
Qed.

Lemma sim_runs sch : forall st st', sim st st' ->
  match runs M st sch with
  | Some st1 => exists sch' st1', runs_replaced M R st' sch' = Some st1' /\ sim st1 st1'
  | None => exists sch', runs_replaced M R st' sch' = None
  end.
Proof.
  induction sch as [|i sch IH]; intros st st' S; [cbn [runs]; exists [], st'; auto|]. cbn [runs].
  pose proof (sim_turn st st' i S) as T. destruct (turn M st i) as [st1|].
  - destruct T as [[_ T]|(st1' & T & S1)].
    + exact (IH st1 st' T).
    + specialize (IH st1 st1' S1). destruct (runs M st1 sch) as [st2|].
      * destruct IH as (sch' & st2' & A & B). exists (i :: sch'), st2'. cbn [runs_replaced]. rewrite T. auto.
      * destruct IH as (sch' & A). exists (i :: sch'). cbn [runs_replaced]. rewrite T. auto.
  - exists [i]. cbn [runs_replaced]. rewrite T. reflexivity.
Qed.

(** If an entry is one instruction, turn by turn. *)
Lemma sim_exact sch : k = 1%nat -> forall st st', sim st st' ->
  match runs M st sch with
  | Some st1 => exists st1', runs_replaced M R st' sch = Some st1' /\ sim st1 st1'
  | None => runs_replaced M R st' sch = None
  end.
Proof.
  intros K1. induction sch as [|i sch IH]; intros st st' S; [cbn [runs]; exists st'; auto|]. cbn [runs runs_replaced].
  assert (T : match turn M st i with Some st1 => exists st1', turn_replaced M R st' i = Some st1' /\ sim st1 st1' | None => turn_replaced M R st' i = None end).
  { pose proof (sim_turn st st' i S) as T. destruct (turn M st i) as [st1|]; [|exact T]. destruct T as [[T _]|T]; [lia|exact T]. }
  destruct (turn M st i) as [st1|].
  - destruct T as (st1' & -> & S1). specialize (IH st1 st1' S1). exact IH.
  - rewrite T. reflexivity.
Qed.

(** Every run of the program is a run of the process. *)
Definition met (st st' : threads M * mem) : Prop :=
  (forall i, fst st i = fst st' i) /\ (forall x, ~ Bs x -> snd st x = snd st' x) /\ jumps_in (snd st) /\ respects M R Bs st'.

Lemma enter_runs i t s0 m : forall n ths, (n <= k)%nat -> 0 <= t < 2 ^ 64 -> 0 <= pc M s0 -> pc M s0 + 16 <= 2 ^ 64 -> jump_at m (pc M s0) j t ->
  ths i = mid (k - n) s0 t ->
  exists ths1, runs M (ths, m) (repeat i n) = Some (ths1, m) /\ ths1 i = go M s0 t /\ forall q, q <> i -> ths1 q = ths q.
Proof.
  induction n as [|n IH]; intros ths Hn R3 R1 R2 Ja E.
  - exists ths. rewrite Nat.sub_0_r, (en_last _ _ _ _ En) in E. split; [reflexivity|auto].
  - cbn [repeat runs]. unfold turn. cbn [fst snd]. rewrite E.
    rewrite (en_step _ _ _ _ En (k - S n) m s0 t ltac:(lia) R3 R1 R2 Ja). cbn [write].
    replace (S (k - S n)) with (k - n)%nat by lia.
    destruct (IH (set_thread ths i (mid (k - n) s0 t)) ltac:(lia) R3 R1 R2 Ja) as (ths1 & A & B & C).
    + unfold set_thread. rewrite Nat.eqb_refl. reflexivity.
    + exists ths1. split; [exact A|]. split; [exact B|]. intros q Hq. rewrite (C q Hq). unfold set_thread. destruct (Nat.eqb_spec q i); [contradiction|reflexivity].
Qed.

Lemma met_turn st st' i st1' : met st st' -> turn_replaced M R st' i = Some st1' ->
  exists n st1, runs M st (repeat i n) = Some st1 /\ met st1 st1'.
Proof.
  intros (Th & Mm & J & C) T. pose proof (respects_next _ _ _ C T) as C1. destruct st as [ths m], st' as [ths' m']. unfold turn_replaced in T. cbn [fst snd] in *.
  destruct (replaced R (pc M (ths' i))) as [t|] eqn:Er.
  - assert (Hi := replaced_in _ _ _ Er). destruct (Rg _ _ Hi) as (R1 & R2 & R3). pose proof (J _ _ Er) as Ja.
    destruct (enter_runs i t (ths' i) m k ths ltac:(lia) R3 R1 R2 Ja) as (ths1 & A & B & D).
    { rewrite Nat.sub_diag, (en_first _ _ _ _ En). apply Th. }
    assert (E1 : st1' = (set_thread ths' i (go M (ths' i) t), m')) by congruence. subst st1'.
    exists k, (ths1, m). split; [exact A|]. split; [|split; [exact Mm|split; [exact J|exact C1]]]. cbn [fst]. intros q. unfold set_thread.
    destruct (Nat.eqb_spec q i) as [->|N]; [exact B|rewrite D by exact N; apply Th].
  - destruct (C [] (ths', m') eq_refl i Er) as [Lk Wr]. cbn [fst snd] in Lk, Wr. unfold turn in T. cbn [fst snd] in T.
    assert (X : exec M m (ths' i) = exec M m' (ths' i)) by (apply L; intros x Hx; apply Mm, Lk, Hx).
    destruct (exec M m' (ths' i)) as [[s w]|] eqn:Ex; [|discriminate T].
    assert (E1 : st1' = (set_thread ths' i s, write m' w)) by congruence. subst st1'.
    exists 1%nat, (set_thread ths i s, write m w). cbn [repeat runs]. unfold turn. cbn [fst snd]. rewrite Th, X. split; [reflexivity|].
    split; [|split; [|split; [|exact C1]]]; cbn [fst snd].
    + intros q. unfold set_thread. destruct (Nat.eqb q i); auto.
    + intros x Hx. apply write_same. auto.
    + intros f t Hf i0 Hi. rewrite write_out; [apply (J f t Hf i0 Hi)|]. intros b Hb. apply (Wr s w eq_refl _ _ Hb). apply Cov.
      exists f, t. split; [apply replaced_in; exact Hf|lia].
Qed.

Lemma met_runs sch : forall st st' st1', met st st' -> runs_replaced M R st' sch = Some st1' ->
  exists sch1 st1, runs M st sch1 = Some st1 /\ met st1 st1'.
Proof.
  induction sch as [|i sch IH]; intros st st' st1' S H; cbn [runs_replaced] in H.
  - assert (st' = st1') by congruence. subst. exists [], st. auto.
  - destruct (turn_replaced M R st' i) as [st2'|] eqn:T; [|discriminate H].
    destruct (met_turn st st' i st2' S T) as (n & st2 & A & S2). destruct (IH st2 st2' st1' S2 H) as (sch1 & st1 & B & D).
    exists (repeat i n ++ sch1), st1. rewrite runs_app, A. auto.
Qed.
End Sim.

Lemma behaves_if M j k mid R (Bs : Z -> Prop) ths m m' : local M -> enters M j k mid ->
  (forall f t, In (f, t) R -> 0 <= f /\ f + 16 <= 2 ^ 64 /\ 0 <= t < 2 ^ 64) -> (forall x, covered R x -> Bs x) ->
  (forall f t, replaced R f = Some t -> jump_at m f j t) -> (forall x, ~ Bs x -> m x = m' x) -> respects M R Bs (ths, m') ->
  behaves M R Bs k mid (ths, m) (ths, m').
Proof.
  intros L En Rg Cov J Mm C. split.
  - intros sch. assert (S : sim M j k mid R Bs (ths, m) (ths, m')).
    { split; [split; [intros i; left; reflexivity|exact Mm]|]. split; [exact J|exact C]. }
    pose proof (sim_runs M j k mid R Bs L En Rg Cov sch _ _ S) as X. destruct (runs M (ths, m) sch) as [st1|]; [|exact X].
    destruct X as (sch' & st1' & A & B & _). exists sch', st1'. auto.
  - intros sch st1' H. assert (S : met M j R Bs (ths, m) (ths, m')) by (split; [reflexivity|auto]).
    destruct (met_runs M j k mid R Bs L En Rg Cov sch _ _ _ S H) as (sch1 & st1 & A & B & D & _). exists sch1, st1. auto.
Qed.

(** Threads that stay in a set of states and write nothing. *)
Lemma respects_closed M R Bs ths m (P : cpu M -> Prop) : (forall i, P (ths i)) ->
  (forall s, P s -> match replaced R (pc M s) with
                    | Some t => P (go M s t)
                    | None => (forall x, looks M m s x -> ~ Bs x) /\ (exec M m s = None \/ exists s', exec M m s = Some (s', []) /\ P s')
                    end) ->
  respects M R Bs (ths, m) /\ forall sch st', runs_replaced M R (ths, m) sch = Some st' -> snd st' = m /\ forall i, P (fst st' i).
Proof.
  intros H0 H1.
  assert (A : forall sch ths st', (forall i, P (ths i)) -> runs_replaced M R (ths, m) sch = Some st' -> snd st' = m /\ forall i, P (fst st' i)).
  { clear ths H0. induction sch as [|i sch IH]; intros ths st' H0 H; cbn [runs_replaced] in H.
    - assert (st' = (ths, m)) by congruence. subst. auto.
    - assert (U : forall s, P s -> forall q, P (set_thread ths i s q)) by (intros s Hs q; unfold set_thread; destruct (Nat.eqb q i); auto).
      unfold turn_replaced, turn in H. cbn [fst snd] in H. pose proof (H1 _ (H0 i)) as X. destruct (replaced R (pc M (ths i))) as [t|].
      + apply IH in H; auto.
      + destruct X as [_ [X|(s' & X & Ps)]]; rewrite X in H; [discriminate H|]. cbn [write] in H. apply IH in H; auto. }
  split; [|intros sch st' H; apply (A sch ths); auto].
  intros sch st' H i Hr. destruct (A sch ths st' H0 H) as [Em Pi]. rewrite Em. specialize (H1 _ (Pi i)). rewrite Hr in H1. destruct H1 as [X Y]. split; [exact X|].
  intros s w E x b Hw. destruct Y as [Y|(s' & Y & _)]; rewrite Y in E; [discriminate E|]. assert (w = []) by congruence. subst w. destruct Hw.
Qed.
