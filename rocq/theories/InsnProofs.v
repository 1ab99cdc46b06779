From Coq Require Import ZArith List Bool Lia.
From Coq Require Import ZifyBool ZifyNat.
From Verif Require Import Word WordLemmas InsnModel InsnSpec.
Import ListNotations.
Open Scope Z_scope.

Ltac Zify.zify_post_hook ::= Z.div_mod_to_equations.

Lemma sx_sgn n v : 0 < n -> sx n v = sgn n v.
Proof.
  intros Hn. unfold sx, sgn. cbv zeta.
  assert (E : Z.testbit v (n - 1) = negb (v mod 2 ^ n <? 2 ^ (n - 1))).
  { rewrite <- (Z.mod_pow2_bits_low v n (n - 1)) by lia.
    set (u := v mod 2 ^ n).
    assert (Hu : 0 <= u < 2 ^ n) by (apply Z.mod_pos_bound, pow2_pos; lia).
    assert (P : 2 ^ n = 2 * 2 ^ (n - 1)).
    { replace n with (1 + (n - 1)) at 1 by lia. rewrite Z.pow_add_r by lia. reflexivity. }
    pose proof (pow2_pos (n - 1) ltac:(lia)) as Hp.
    pose proof (Z.testbit_spec' u (n - 1) ltac:(lia)) as T.
    destruct (Z.ltb_spec u (2 ^ (n - 1))) as [L|L]; simpl.
    - rewrite Z.div_small in T by lia. destruct (Z.testbit u (n - 1)); auto. discriminate T.
    - assert (D : u / 2 ^ (n - 1) = 1).
      { symmetry. apply Z.div_unique with (r := u - 2 ^ (n - 1)); lia. }
      rewrite D in T. destruct (Z.testbit u (n - 1)); auto. discriminate T. }
  rewrite E. destruct (_ <? _); reflexivity.
Qed.

Lemma rd_S n m a : rd (S n) m a = m (addr64 a) + 256 * rd n m (a + 1).
Proof. reflexivity. Qed.

Lemma code_at_tl m a b l : code_at m a (b :: l) -> m (addr64 a) = b /\ code_at m (a + 1) l.
Proof.
  intros H. split.
  - rewrite <- (H 0%nat b eq_refl). f_equal. f_equal. lia.
  - intros i c Hi. rewrite <- (H (S i) c Hi). f_equal. f_equal. lia.
Qed.

Lemma rd_code l : forall m a rest, code_at m a (l ++ rest) -> rd (length l) m a = le_word l.
Proof.
  induction l as [|b l IH]; intros m a rest H; [reflexivity|].
  cbn [app] in H. apply code_at_tl in H. destruct H as [H1 H2].
  cbn [length]. rewrite rd_S, le_word_cons, H1, (IH m (a + 1) rest H2). reflexivity.
Qed.

Lemma code_at_app l : forall m a rest, code_at m a (l ++ rest) ->
  code_at m (a + Z.of_nat (length l)) rest.
Proof.
  induction l as [|b l IH]; intros m a rest H.
  - cbn [length app] in *. replace (a + Z.of_nat 0) with a by lia. auto.
  - cbn [app] in H. apply code_at_tl in H. destruct H as [_ H]. apply IH in H.
    replace (a + Z.of_nat (length (b :: l))) with (a + 1 + Z.of_nat (length l)); auto.
    cbn [length]. lia.
Qed.

Lemma rd_le_bytes n v m a rest : code_at m a (le_bytes n v ++ rest) ->
  rd n m a = v mod 2 ^ (8 * Z.of_nat n).
Proof.
  intros H. rewrite <- le_word_bytes, <- (rd_code _ _ _ _ H), le_bytes_length. reflexivity.
Qed.

Lemma code_at_nil_r m a l : code_at m a l -> code_at m a (l ++ []).
Proof. rewrite app_nil_r. auto. Qed.

Lemma addr64_congr x y k : x = y + k * 2 ^ 64 -> addr64 x = addr64 y.
Proof. intros H. apply (wrap_congr 64 x y k); lia. Qed.

(** ** text_gen_insn *)

Lemma text_poke_rd m a op d : code_at m a (text_poke_insn op d) ->
  rd 1 m a = u8 op /\ rd 4 m (a + 1) = u32 d.
Proof.
  intros H. unfold text_poke_insn in H. split.
  - apply (rd_code [u8 op]) with (rest := le_bytes 4 (u32 d)) in H.
    change (length [u8 op]) with 1%nat in H. rewrite H.
    rewrite le_word_cons. change (le_word []) with 0. lia.
  - apply code_at_tl in H. destruct H as [_ H]. apply code_at_nil_r in H.
    apply rd_le_bytes in H. rewrite H. change (8 * Z.of_nat 4) with 32.
    apply (wrap_wrap 32 d). lia.
Qed.

Lemma sgn_u32 x : sx 32 (u32 x) = sgn 32 x.
Proof. rewrite sx_sgn by lia. unfold u32. apply sgn_wrap. lia. Qed.

Definition disp32 (addr dest size : Z) : Z := sgn 32 (dest - (addr + size)).

Lemma gen_disp addr dest size :
  sgn 32 (s32 (s64 dest - s64 (u64 (addr + size)))) = disp32 addr dest size.
Proof.
  unfold disp32, s32.
  assert (E : wrap 32 (sgn 32 (s64 dest - s64 (u64 (addr + size)))) = wrap 32 (dest - (addr + size))).
  { rewrite wrap_sgn by lia. unfold s64, u64.
    destruct (sgn_congr 64 dest ltac:(lia)) as [k1 ->].
    assert (E2 : sgn 64 (wrap 64 (addr + size)) = sgn 64 (addr + size)) by (apply sgn_wrap; lia).
    rewrite E2. destruct (sgn_congr 64 (addr + size) ltac:(lia)) as [k2 ->].
    apply wrap_congr with (k := (k1 - k2) * 2 ^ 32); lia. }
  apply wrap_eq_sgn_eq. exact E.
Qed.

(** The signed distance modulo 2^64. *)
Definition dist (addr dest size : Z) : Z := sx 64 (dest - (addr + size)).

Lemma disp_reaches n addr dest size : 0 < n <= 64 -> 0 <= dest < 2 ^ 64 ->
  (addr64 (addr + size + sgn n (dest - (addr + size))) = dest <->
   - 2 ^ (n - 1) <= dist addr dest size < 2 ^ (n - 1)).
Proof.
  intros Hn Hd. unfold dist. rewrite sx_sgn by lia.
  set (D := dest - (addr + size)).
  pose proof (sgn_range n D ltac:(lia)) as R.
  destruct (sgn_congr n D ltac:(lia)) as [k Hk].
  destruct (sgn_congr 64 D ltac:(lia)) as [q Hq].
  split.
  - intros H.
    (* dest = D + addr + size and the sum with sgn n D agree modulo 2^64 *)
    assert (M : wrap 64 (sgn n D) = wrap 64 D).
    { assert (E : addr64 (addr + size + sgn n D) = addr64 (addr + size + D)).
      { rewrite H. subst D. replace (addr + size + (dest - (addr + size))) with dest by lia.
        symmetry. apply Z.mod_small. lia. }
      unfold addr64 in E. unfold wrap.
      replace (sgn n D) with (addr + size + sgn n D - (addr + size)) by lia.
      rewrite Zminus_mod, E, <- Zminus_mod. f_equal. lia. }
    apply wrap_eq_sgn_eq in M. rewrite <- M. rewrite sgn_id; auto; try lia.
    assert (2 ^ (n - 1) <= 2 ^ (64 - 1)) by (apply Z.pow_le_mono_r; lia). lia.
  - intros H. assert (E : sgn n D = sgn 64 D).
    { rewrite <- (sgn_id n (sgn 64 D)) by lia. apply wrap_eq_sgn_eq.
      rewrite Hq. symmetry. apply wrap_congr with (k := q * 2 ^ (64 - n)); [lia|].
      rewrite <- Z.mul_assoc, <- Z.pow_add_r by lia. do 2 f_equal. f_equal. lia. }
    rewrite E, Hq. transitivity (addr64 dest); [|apply Z.mod_small; lia].
    apply addr64_congr with (k := q). subst D. lia.
Qed.

Lemma jmp_insn_exec old op addr dest m regs :
  op = 0xe8 \/ op = 0xe9 -> code_at m addr (text_gen_insn old op addr dest) ->
  exists s', x86_step (XCpu regs addr m) = Some s' /\
    x_rip s' = addr64 (addr + 5 + sgn 32 (dest - (addr + 5))) /\
    (op = 0xe9 -> x_reg s' = regs /\ x_mem s' = m) /\
    (op = 0xe8 -> x_reg s' = set_reg regs rsp (addr64 (regs rsp - 8)) /\
                  x_mem s' = wr64 m (addr64 (regs rsp - 8)) (addr64 (addr + 5))).
Proof.
  intros Hop H.
  assert (E : text_gen_insn old op addr dest =
    text_poke_insn op (s32 (s64 dest - s64 (u64 (addr + 5))))).
  { destruct Hop as [-> | ->]; reflexivity. }
  rewrite E in H. apply text_poke_rd in H. destruct H as [H1 H4].
  unfold x86_step. cbn [x_mem x_rip x_reg]. rewrite H1, H4, sgn_u32, gen_disp.
  destruct Hop as [-> | ->].
  - change (u8 0xe8) with 0xe8. cbv match. eexists; split; [reflexivity|].
    cbn [x_rip x_reg x_mem]. unfold disp32. repeat split; intros; try discriminate; auto.
  - change (u8 0xe9) with 0xe9. cbv match. eexists; split; [reflexivity|].
    cbn [x_rip x_reg x_mem]. unfold disp32. repeat split; intros; try discriminate; auto.
Qed.

Lemma rd1_rd4 m a : (forall x, 0 <= m x < 256) -> rd 1 m a = rd 4 m a mod 256.
Proof.
  intros Hb. rewrite 2!rd_S. change (rd 0 m (a + 1)) with 0.
  generalize (rd 3 m (a + 1)); intros z. pose proof (Hb (addr64 a)). lia.
Qed.

Lemma jmp8_exec old addr dest m regs : (forall x, 0 <= m x < 256) ->
  code_at m addr (text_gen_insn old 0xeb addr dest) ->
  x86_step (XCpu regs addr m) =
    Some (XCpu regs (addr64 (addr + 2 + sgn 8 (dest - (addr + 2)))) m).
Proof.
  intros Hb H.
  change (text_gen_insn old 0xeb addr dest) with
    (text_poke_insn 0xeb (s32 (s64 dest - s64 (u64 (addr + 2))))) in H.
  apply text_poke_rd in H. destruct H as [H1 H4].
  unfold x86_step. cbn [x_mem x_rip x_reg]. rewrite H1.
  change (u8 0xeb) with 0xeb. cbv match. do 2 f_equal. f_equal. f_equal.
  rewrite rd1_rd4, H4, sx_sgn by (auto; lia).
  pose proof (gen_disp addr dest 2) as G. unfold disp32 in G.
  change 256 with (2 ^ 8). change ((u32 ?x) mod 2 ^ 8) with (wrap 8 (u32 x)).
  rewrite sgn_wrap by lia.
  set (x := s32 (s64 dest - s64 (u64 (addr + 2)))) in *.
  apply wrap_eq_sgn_eq.
  assert (A : wrap 8 (u32 x) = wrap 8 (sgn 32 x)).
  { unfold u32. destruct (sgn_congr 32 x ltac:(lia)) as [k ->].
    unfold wrap. rewrite mod_pow_mod by lia.
    replace (x + k * 2 ^ 32) with (x + (k * 2 ^ 24) * 2 ^ 8) by lia.
    rewrite Z_mod_plus_full. reflexivity. }
  rewrite A, G. destruct (sgn_congr 32 (dest - (addr + 2)) ltac:(lia)) as [k ->].
  apply wrap_congr with (k := k * 2 ^ 24); lia.
Qed.

(** ** Jump entries *)

Lemma x86_entry_exec m a dest regs : 0 <= dest < 2 ^ 64 ->
  code_at m a (jump_entry X86_64 dest) ->
  x86_step (XCpu regs a m) = Some (XCpu regs dest m).
Proof.
  intros Hd H. unfold jump_entry, jmp_table_entry, arch_jmp_table_jmp in H.
  assert (Hd8 : rd 8 m (a + 8) = dest).
  { apply code_at_app in H. rewrite le_bytes_length in H.
    change (Z.of_nat 8) with 8 in H.
    apply code_at_nil_r in H. apply rd_le_bytes in H. rewrite H.
    apply Z.mod_small. exact Hd. }
  change (le_bytes 8 0x90900000000225ff) with ([0xff] ++ [0x25] ++ le_bytes 4 2 ++ [0x90; 0x90]) in H.
  rewrite <- !app_assoc in H.
  pose proof (rd_code _ _ _ _ H) as B0. apply code_at_app in H.
  pose proof (rd_code _ _ _ _ H) as B1. apply code_at_app in H.
  pose proof (rd_le_bytes _ _ _ _ _ H) as B2.
  cbn [length] in *. change (Z.of_nat 1) with 1 in *.
  unfold x86_step. cbn [x_mem x_rip x_reg].
  rewrite B0. change (le_word [0xff]) with 0xff. cbv match.
  rewrite B1. change (le_word [0x25] =? 0x25) with true. cbv match.
  replace (a + 1 + 1) with (a + 2) in B2 by lia. rewrite B2.
  change (2 mod 2 ^ (8 * Z.of_nat 4)) with 2. change (sx 32 2) with 2.
  replace (a + 6 + 2) with (a + 8) by lia. rewrite Hd8.
  do 2 f_equal. apply Z.mod_small. exact Hd.
Qed.

Lemma a64_entry_exec m a dest regs : 0 <= dest < 2 ^ 64 ->
  code_at m a (jump_entry AARCH64 dest) ->
  a64_steps 2 (ACpu regs a m) = Some (ACpu (set_reg regs 17 dest) dest m).
Proof.
  intros Hd H. unfold jump_entry, jmp_table_entry, arch_jmp_table_jmp in H.
  assert (Hd8 : rd 8 m (a + 8) = dest).
  { apply code_at_app in H. rewrite le_bytes_length in H.
    change (Z.of_nat 8) with 8 in H.
    apply code_at_nil_r in H. apply rd_le_bytes in H. rewrite H.
    apply Z.mod_small. exact Hd. }
  change (le_bytes 8 0xd61f022058000051) with (le_bytes 4 0x58000051 ++ le_bytes 4 0xd61f0220) in H.
  rewrite <- app_assoc in H.
  pose proof (rd_le_bytes _ _ _ _ _ H) as W1. apply code_at_app in H.
  pose proof (rd_le_bytes _ _ _ _ _ H) as W2.
  rewrite le_bytes_length in W2. change (Z.of_nat 4) with 4 in W2.
  change (0x58000051 mod _) with 0x58000051 in W1.
  change (0xd61f0220 mod _) with 0xd61f0220 in W2.
  assert (W2' : rd 4 m (addr64 (a + 4)) = 0xd61f0220).
  { rewrite <- W2. clear. unfold addr64 at 1. rewrite !rd_S.
    change (rd 0 m ?x) with 0. unfold addr64.
    rewrite Z.mod_mod by lia. rewrite <- !Z.add_assoc. rewrite !Zplus_mod_idemp_l.
    rewrite <- !Z.add_assoc. reflexivity. }
  cbn [a64_steps]. unfold a64_step at 1. cbn [a_mem a_pc a_reg]. rewrite W1.
  change (bits 0x58000051 24 8 =? 0x58) with true. cbv match.
  change (bits 0x58000051 0 5) with 17. change (17 =? 31) with false. cbv match.
  change (4 * sx 19 (bits 0x58000051 5 19)) with 8. rewrite Hd8.
  unfold a64_step. cbn [a_mem a_pc a_reg]. rewrite W2'.
  change (bits 0xd61f0220 24 8 =? 0x58) with false. cbv match.
  change ((bits 0xd61f0220 10 22 =? 0x3587c0) && (bits 0xd61f0220 0 5 =? 0)) with true. cbv match.
  change (bits 0xd61f0220 5 5) with 17. change (17 =? 31) with false. cbv match.
  do 2 f_equal. unfold set_reg. change (17 =? 17) with true. cbv match.
  apply Z.mod_small. exact Hd.
Qed.

(** ** Packaged statements *)

Definition fits32 (addr dest size : Z) : Prop :=
  - 2 ^ 31 <= dist addr dest size < 2 ^ 31.

Lemma call_jump_reach_iff old op addr dest m regs :
  op = 0xe8 \/ op = 0xe9 -> 0 <= dest < 2 ^ 64 ->
  code_at m addr (text_gen_insn old op addr dest) ->
  exists s', x86_step (XCpu regs addr m) = Some s' /\
    (x_rip s' = dest <-> - 2 ^ 31 <= sx 64 (dest - (addr + 5)) < 2 ^ 31) /\
    (op = 0xe9 -> x_reg s' = regs /\ x_mem s' = m) /\
    (op = 0xe8 -> x_reg s' = set_reg regs rsp (addr64 (regs rsp - 8)) /\
                  x_mem s' = wr64 m (addr64 (regs rsp - 8)) (addr64 (addr + 5))).
Proof.
  intros Hop Hd H. destruct (jmp_insn_exec old op addr dest m regs Hop H) as (s' & E & R & A & B).
  exists s'. rewrite R. pose proof (disp_reaches 32 addr dest 5 ltac:(lia) Hd) as I.
  unfold dist in I. change (32 - 1) with 31 in I. repeat split; try tauto; apply A || apply B; auto.
Qed.

Lemma jmpq_replace_reach old addr dest m regs : 0 <= dest < 2 ^ 64 ->
  - 2 ^ 31 <= sx 64 (dest - (addr + 5)) < 2 ^ 31 ->
  code_at m addr (ulpatch_jmpq_replace old addr dest) ->
  x86_step (XCpu regs addr m) = Some (XCpu regs dest m).
Proof.
  intros Hd Hf H.
  destruct (call_jump_reach_iff old 0xe9 addr dest m regs (or_intror eq_refl) Hd H)
    as (s' & E & R & A & _).
  rewrite E. destruct (A eq_refl) as [A1 A2]. apply R in Hf. destruct s'; cbn in *. subst. auto.
Qed.

Lemma jmp8_reach_iff old addr dest m regs : (forall x, 0 <= m x < 256) ->
  0 <= dest < 2 ^ 64 -> code_at m addr (text_gen_insn old 0xeb addr dest) ->
  exists s', x86_step (XCpu regs addr m) = Some s' /\ x_reg s' = regs /\ x_mem s' = m /\
    (x_rip s' = dest <-> - 2 ^ 7 <= sx 64 (dest - (addr + 2)) < 2 ^ 7).
Proof.
  intros Hb Hd H. eexists. split; [apply (jmp8_exec old addr dest m regs Hb H)|]. cbn [x_rip x_reg x_mem].
  repeat split; try (apply (disp_reaches 8 addr dest 2); auto; lia).
Qed.

(** A memory holding [bytes] at [a] and zero elsewhere, for the examples. *)
Definition code_mem (a : Z) (bytes : list Z) : Z -> Z :=
  fun x => let o := (x - a) mod 2 ^ 64 in
           if o <? Z.of_nat (length bytes) then nth (Z.to_nat o) bytes 0 else 0.

Lemma code_mem_at a bytes : Z.of_nat (length bytes) < 2 ^ 64 -> code_at (code_mem a bytes) a bytes.
Proof.
  intros Hl i b Hi. unfold code_mem. cbv zeta.
  assert (Hlt : (i < length bytes)%nat) by (apply nth_error_Some; congruence).
  assert (E : (addr64 (a + Z.of_nat i) - a) mod 2 ^ 64 = Z.of_nat i).
  { unfold addr64. rewrite Zminus_mod_idemp_l. replace (a + Z.of_nat i - a) with (Z.of_nat i) by lia.
    apply Z.mod_small. lia. }
  rewrite E. destruct (Z.ltb_spec (Z.of_nat i) (Z.of_nat (length bytes))); [|lia].
  rewrite Nat2Z.id. apply nth_error_nth. auto.
Qed.
