(** Lemmas about words, bytes and flat memory. *)
From Coq Require Import ZArith List Bool Lia.
From Coq Require Import ZifyBool ZifyNat.
From Verif Require Import Word.
Import ListNotations.
Open Scope Z_scope.

Ltac Zify.zify_post_hook ::= Z.div_mod_to_equations.

Lemma pow2_pos n : 0 <= n -> 0 < 2 ^ n.
Proof. intros; apply Z.pow_pos_nonneg; lia. Qed.

Lemma wrap_range n x : 0 <= n -> 0 <= wrap n x < 2 ^ n.
Proof. intros; unfold wrap; apply Z.mod_pos_bound; apply pow2_pos; lia. Qed.

Lemma wrap_id n x : 0 <= x < 2 ^ n -> wrap n x = x.
Proof. intros; unfold wrap; apply Z.mod_small; lia. Qed.

Lemma wrap_wrap n x : 0 <= n -> wrap n (wrap n x) = wrap n x.
Proof. intros; unfold wrap; apply Z.mod_mod; pose proof (pow2_pos n); lia. Qed.

Lemma wrap_add_l n x y : 0 <= n -> wrap n (wrap n x + y) = wrap n (x + y).
Proof. intros; unfold wrap; apply Zplus_mod_idemp_l. Qed.

Lemma wrap_add_r n x y : 0 <= n -> wrap n (x + wrap n y) = wrap n (x + y).
Proof. intros; unfold wrap; apply Zplus_mod_idemp_r. Qed.

Lemma wrap_sub_l n x y : 0 <= n -> wrap n (wrap n x - y) = wrap n (x - y).
Proof. intros; unfold wrap; apply Zminus_mod_idemp_l. Qed.

Lemma wrap_sub_r n x y : 0 <= n -> wrap n (x - wrap n y) = wrap n (x - y).
Proof. intros; unfold wrap; apply Zminus_mod_idemp_r. Qed.

Lemma wrap_congr n x y k : 0 <= n -> x = y + k * 2 ^ n -> wrap n x = wrap n y.
Proof.
  intros Hn ->. unfold wrap. apply Z_mod_plus_full.
Qed.

Lemma sgn_range n x : 0 < n -> - 2 ^ (n - 1) <= sgn n x < 2 ^ (n - 1).
Proof.
  intros Hn. unfold sgn. cbv zeta.
  pose proof (Z.mod_pos_bound x (2 ^ n) (pow2_pos n ltac:(lia))) as H.
  assert (E : 2 ^ n = 2 * 2 ^ (n - 1)).
  { replace n with (Z.succ (n - 1)) at 1 by lia. rewrite Z.pow_succ_r; lia. }
  destruct (Z.ltb_spec (x mod 2 ^ n) (2 ^ (n - 1))); lia.
Qed.

Lemma sgn_congr n x : 0 < n -> exists k, sgn n x = x + k * 2 ^ n.
Proof.
  intros Hn. unfold sgn. cbv zeta.
  pose proof (Z.div_mod x (2 ^ n) ltac:(pose proof (pow2_pos n); lia)) as H.
  destruct (Z.ltb_spec (x mod 2 ^ n) (2 ^ (n - 1))).
  - exists (- (x / 2 ^ n)). nia.
  - exists (- (x / 2 ^ n) - 1). nia.
Qed.

Lemma sgn_id n x : 0 < n -> - 2 ^ (n - 1) <= x < 2 ^ (n - 1) -> sgn n x = x.
Proof.
  intros Hn Hx.
  assert (E : 2 ^ n = 2 * 2 ^ (n - 1)).
  { replace n with (Z.succ (n - 1)) at 1 by lia. rewrite Z.pow_succ_r; lia. }
  destruct (sgn_congr n x Hn) as [k Hk].
  pose proof (sgn_range n x Hn) as Hr.
  assert (k = 0) by nia. subst. lia.
Qed.

Lemma wrap_sgn n x : 0 < n -> wrap n (sgn n x) = wrap n x.
Proof.
  intros Hn. destruct (sgn_congr n x Hn) as [k Hk].
  apply wrap_congr with (k := k); lia.
Qed.

Lemma sgn_wrap n x : 0 < n -> sgn n (wrap n x) = sgn n x.
Proof.
  intros Hn. unfold sgn, wrap. rewrite Z.mod_mod; auto.
  pose proof (pow2_pos n); lia.
Qed.

Lemma wrap_eq_sgn_eq n x y : wrap n x = wrap n y -> sgn n x = sgn n y.
Proof. unfold wrap, sgn. intros ->. reflexivity. Qed.

Lemma mod_pow_mod x n k : 0 <= k <= n -> (x mod 2 ^ n) mod 2 ^ k = x mod 2 ^ k.
Proof.
  intros H. symmetry. apply Znumtheory.Zmod_div_mod; try (apply pow2_pos; lia).
  exists (2 ^ (n - k)). rewrite <- Z.pow_add_r by lia. f_equal. lia.
Qed.

(** * Memory *)

Lemma st_out n m a v x : x < a \/ a + Z.of_nat n <= x -> st n m a v x = m x.
Proof.
  intros H. unfold st.
  destruct (Z.leb_spec a x), (Z.ltb_spec x (a + Z.of_nat n)); simpl; auto; lia.
Qed.

Lemma st_in n m a v x : a <= x < a + Z.of_nat n ->
  st n m a v x = (v / 2 ^ (8 * (x - a))) mod 256.
Proof.
  intros H. unfold st.
  destruct (Z.leb_spec a x), (Z.ltb_spec x (a + Z.of_nat n)); simpl; auto; lia.
Qed.

Lemma ld_S n m a : ld (S n) m a = m a + 256 * ld n m (a + 1).
Proof. reflexivity. Qed.

Lemma le_word_cons b l : le_word (b :: l) = b + 256 * le_word l.
Proof. reflexivity. Qed.

Lemma ld_ext n : forall m1 m2 a,
  (forall x, a <= x < a + Z.of_nat n -> m1 x = m2 x) -> ld n m1 a = ld n m2 a.
Proof.
  induction n as [|n IH]; intros m1 m2 a H; simpl; auto.
  rewrite (H a) by lia. rewrite (IH m1 m2 (a + 1)); auto.
  intros x Hx; apply H; lia.
Qed.

Lemma ld_le_word n : forall m a, ld n m a = le_word (bytes_at m a n).
Proof.
  induction n as [|n IH]; intros m a; simpl; auto. rewrite IH; auto.
Qed.

Lemma pow256_S n : 2 ^ (8 * Z.of_nat (S n)) = 256 * 2 ^ (8 * Z.of_nat n).
Proof.
  replace (8 * Z.of_nat (S n)) with (8 + 8 * Z.of_nat n) by lia.
  rewrite Z.pow_add_r by lia. reflexivity.
Qed.

Lemma mod_mul_split v P : 0 < P ->
  v mod (256 * P) = v mod 256 + 256 * ((v / 256) mod P).
Proof.
  intros HP. apply Z.rem_mul_r; lia.
Qed.

Lemma ld_st_gen n : forall m a v,
  (forall x, a <= x < a + Z.of_nat n -> m x = (v / 2 ^ (8 * (x - a))) mod 256) ->
  ld n m a = v mod 2 ^ (8 * Z.of_nat n).
Proof.
  induction n as [|n IH]; intros m a v H.
  - simpl. rewrite Z.mod_1_r. reflexivity.
  - rewrite pow256_S. rewrite ld_S.
    rewrite (H a) by lia. rewrite Z.sub_diag. simpl (2 ^ (8 * 0)). rewrite Z.div_1_r.
    rewrite (IH m (a + 1) (v / 256)).
    + rewrite mod_mul_split; auto. apply pow2_pos; lia.
    + intros x Hx. rewrite H by lia. f_equal.
      rewrite Z.div_div by (try lia; apply pow2_pos; lia).
      f_equal. replace (8 * (x - a)) with (8 + 8 * (x - (a + 1))) by lia.
      rewrite Z.pow_add_r by lia. reflexivity.
Qed.

Lemma ld_st n m a v : ld n (st n m a v) a = v mod 2 ^ (8 * Z.of_nat n).
Proof. apply ld_st_gen. intros x Hx. apply st_in; auto. Qed.

Lemma ld_st_disj n k m a b v :
  a + Z.of_nat n <= b \/ b + Z.of_nat k <= a ->
  ld n (st k m b v) a = ld n m a.
Proof.
  intros H. apply ld_ext. intros x Hx. apply st_out. lia.
Qed.

Definition byte_mem (m : mem) : Prop := forall x, 0 <= m x < 256.

Lemma st_byte n m a v : byte_mem m -> byte_mem (st n m a v).
Proof.
  intros H x. unfold st. destruct (_ && _); auto. apply Z.mod_pos_bound; lia.
Qed.

Lemma ld_range n : forall m a, byte_mem m -> 0 <= ld n m a < 2 ^ (8 * Z.of_nat n).
Proof.
  induction n as [|n IH]; intros m a H.
  - simpl. lia.
  - rewrite pow256_S. rewrite ld_S. pose proof (H a) as H0.
    pose proof (IH m (a + 1) H) as H1.
    generalize dependent (2 ^ (8 * Z.of_nat n)). intros P IH1 H1. lia.
Qed.

(** * Byte lists *)

Lemma le_bytes_length n : forall v, length (le_bytes n v) = n.
Proof. induction n; intros; simpl; auto. Qed.

Lemma le_word_bytes n : forall v, le_word (le_bytes n v) = v mod 2 ^ (8 * Z.of_nat n).
Proof.
  induction n as [|n IH]; intros v.
  - simpl. rewrite Z.mod_1_r; auto.
  - rewrite pow256_S. simpl le_bytes. rewrite le_word_cons, IH.
    symmetry. apply mod_mul_split. apply pow2_pos; lia.
Qed.

Lemma le_word_range l : Forall (fun b => 0 <= b < 256) l ->
  0 <= le_word l < 2 ^ (8 * Z.of_nat (length l)).
Proof.
  induction 1 as [|b l Hb Hl IH].
  - simpl; lia.
  - simpl length. rewrite pow256_S. rewrite le_word_cons.
    generalize dependent (2 ^ (8 * Z.of_nat (length l))). intros P H1. lia.
Qed.

Lemma le_bytes_word l : Forall (fun b => 0 <= b < 256) l ->
  le_bytes (length l) (le_word l) = l.
Proof.
  induction 1 as [|b l Hb Hl IH]; [reflexivity|].
  simpl length. rewrite le_word_cons.
  assert (E1 : (b + 256 * le_word l) mod 256 = b).
  { rewrite Z.mul_comm, Z_mod_plus_full. apply Z.mod_small; lia. }
  assert (E2 : (b + 256 * le_word l) / 256 = le_word l).
  { rewrite Z.mul_comm, Z.div_add by lia. rewrite Z.div_small by lia. lia. }
  change (le_bytes (S (length l)) (b + 256 * le_word l)) with
    ((b + 256 * le_word l) mod 256 :: le_bytes (length l) ((b + 256 * le_word l) / 256)).
  rewrite E1, E2. congruence.
Qed.

Lemma le_bytes_range n : forall v, Forall (fun b => 0 <= b < 256) (le_bytes n v).
Proof.
  induction n; intros v; simpl; constructor; auto. apply Z.mod_pos_bound; lia.
Qed.
