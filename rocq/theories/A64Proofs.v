From Coq Require Import ZArith List Bool Lia.
From Coq Require Import ZifyBool ZifyNat.
From Verif Require Import Word WordLemmas ElfDefs X86RelocModel InsnSpec InsnProofs A64Model A64Spec.
Import ListNotations.
Open Scope Z_scope.

Ltac Zify.zify_post_hook ::= Z.div_mod_to_equations.

(** ** Bit-level helpers *)

Lemma bits_testbit v lo n i : 0 <= lo -> 0 <= n -> 0 <= i ->
  Z.testbit (bits v lo n) i = if i <? n then Z.testbit v (i + lo) else false.
Proof.
  intros Hlo Hn Hi. unfold bits. rewrite <- Z.shiftr_div_pow2 by lia.
  destruct (Z.ltb_spec i n).
  - rewrite Z.mod_pow2_bits_low by lia. rewrite Z.shiftr_spec by lia. reflexivity.
  - rewrite Z.mod_pow2_bits_high by lia. reflexivity.
Qed.

Lemma wrap_testbit n v i : 0 <= n -> 0 <= i ->
  Z.testbit (wrap n v) i = if i <? n then Z.testbit v i else false.
Proof.
  intros Hn Hi. unfold wrap. destruct (Z.ltb_spec i n).
  - rewrite Z.mod_pow2_bits_low by lia. reflexivity.
  - rewrite Z.mod_pow2_bits_high by lia. reflexivity.
Qed.

Lemma ones_testbit n i : 0 <= n -> 0 <= i -> Z.testbit (Z.ones n) i = (i <? n).
Proof.
  intros Hn Hi. destruct (Z.ltb_spec i n).
  - apply Z.ones_spec_low. lia.
  - apply Z.ones_spec_high. lia.
Qed.

(** Writing the field [shift, shift+n) of a 32-bit word. *)
Lemma put_field_testbit insn n shift imm i :
  0 <= insn < 2 ^ 32 -> 0 <= n -> 0 <= shift -> shift + n <= 32 -> 0 <= i ->
  Z.testbit (put_field insn (Z.ones n) shift imm) i =
  if (shift <=? i) && (i <? shift + n) then Z.testbit imm (i - shift) else Z.testbit insn i.
Proof.
  intros Hin Hn Hs Hsn Hi. unfold put_field, u32, u64. cbv zeta.
  assert (Hhi : 32 <= i -> Z.testbit insn i = false).
  { intros H. replace insn with (insn mod 2 ^ 32) by (apply Z.mod_small; lia).
    apply Z.mod_pow2_bits_high. lia. }
  rewrite wrap_testbit by lia.
  destruct (Z.ltb_spec i 32).
  - rewrite Z.lor_spec, Z.land_spec, !wrap_testbit, Z.lnot_spec, wrap_testbit by lia.
    rewrite !Z.shiftl_spec, Z.land_spec by lia.
    destruct (Z.ltb_spec i 32); [|lia]. destruct (Z.ltb_spec i 64); [|lia].
    destruct (Z.leb_spec shift i); simpl.
    + rewrite ones_testbit by lia. destruct (Z.ltb_spec (i - shift) n), (Z.ltb_spec i (shift + n)); try lia; simpl.
      * rewrite andb_false_r, andb_true_r. reflexivity.
      * rewrite andb_false_r, andb_true_r, orb_false_r. reflexivity.
    + rewrite (Z.testbit_neg_r (Z.ones n) (i - shift)) by lia.
      rewrite andb_false_r, andb_true_r, orb_false_r. reflexivity.
  - destruct (Z.leb_spec shift i), (Z.ltb_spec i (shift + n)); simpl; try lia; symmetry; auto.
Qed.

Definition adr_mask : Z := Z.lor (Z.shiftl ADR_IMM_LOMASK ADR_IMM_LOSHIFT)
                                 (Z.shiftl ADR_IMM_HIMASK ADR_IMM_HISHIFT).

Lemma adr_mask_testbit i : 0 <= i ->
  Z.testbit adr_mask i = ((29 <=? i) && (i <? 31)) || ((5 <=? i) && (i <? 24)).
Proof.
  intros Hi. unfold adr_mask.
  change ADR_IMM_LOMASK with (Z.ones 2). change ADR_IMM_HIMASK with (Z.ones 19).
  change ADR_IMM_LOSHIFT with 29. change ADR_IMM_HISHIFT with 5.
  rewrite Z.lor_spec, !Z.shiftl_spec by lia.
  destruct (Z.leb_spec 29 i) as [A|A], (Z.leb_spec 5 i) as [B|B]; try lia.
  - rewrite !ones_testbit by lia.
    destruct (Z.ltb_spec (i - 29) 2), (Z.ltb_spec i 31), (Z.ltb_spec (i - 5) 19), (Z.ltb_spec i 24);
      try lia; reflexivity.
  - rewrite (Z.testbit_neg_r _ (i - 29)) by lia. rewrite ones_testbit by lia.
    destruct (Z.ltb_spec i 31), (Z.ltb_spec (i - 5) 19), (Z.ltb_spec i 24);
      try lia; reflexivity.
  - rewrite !Z.testbit_neg_r by lia. reflexivity.
Qed.

Lemma small_testbit insn i : 0 <= insn < 2 ^ 32 -> 32 <= i -> Z.testbit insn i = false.
Proof.
  intros H Hi. replace insn with (insn mod 2 ^ 32) by (apply Z.mod_small; lia).
  apply Z.mod_pow2_bits_high. lia.
Qed.

Lemma adr_testbit insn imm i : 0 <= insn < 2 ^ 32 -> insn <> AARCH64_BREAK_FAULT -> 0 <= i ->
  Z.testbit (encode_immediate IMM_ADR insn imm) i =
  if (29 <=? i) && (i <? 31) then Z.testbit imm (i - 29)
  else if (5 <=? i) && (i <? 24) then Z.testbit imm (i - 5 + 2)
  else Z.testbit insn i.
Proof.
  intros Hin Hf Hi. unfold encode_immediate.
  destruct (Z.eqb_spec insn AARCH64_BREAK_FAULT); [contradiction|]. cbv zeta.
  fold adr_mask. unfold put_field, u32, u64. cbv zeta.
  rewrite wrap_testbit by lia.
  destruct (Z.ltb_spec i 32) as [L|L].
  2:{ rewrite (small_testbit insn i) by lia.
      destruct (Z.ltb_spec i 31), (Z.ltb_spec i 24); try lia. rewrite !andb_false_r. reflexivity. }
  rewrite Z.lor_spec, Z.land_spec, !wrap_testbit, Z.lnot_spec, wrap_testbit by lia.
  rewrite !Z.shiftl_spec, Z.land_spec by lia. replace (i - 0) with i by lia.
  rewrite adr_mask_testbit by lia.
  destruct (Z.ltb_spec i 32); [|lia]. destruct (Z.ltb_spec i 64); [|lia].
  rewrite Z.lor_spec, !wrap_testbit by lia. destruct (Z.ltb_spec i 32); [|lia].
  change ADR_IMM_LOMASK with (Z.ones 2). change ADR_IMM_HIMASK with (Z.ones 19).
  change ADR_IMM_LOSHIFT with 29. change ADR_IMM_HISHIFT with 5. change ADR_IMM_HILOSPLIT with 2.
  rewrite !Z.shiftl_spec, !Z.land_spec by lia.
  destruct (Z.leb_spec 29 i) as [A|A].
  - rewrite Z.shiftr_spec by lia. rewrite !ones_testbit by lia.
    destruct (Z.leb_spec 5 i) as [B|B]; [|lia].
    destruct (Z.ltb_spec (i - 29) 2), (Z.ltb_spec i 31), (Z.ltb_spec (i - 5) 19), (Z.ltb_spec i 24);
      try lia; cbn [andb orb negb]; rewrite ?andb_false_r, ?andb_true_r, ?orb_false_r; reflexivity.
  - rewrite (Z.testbit_neg_r imm (i - 29)), (Z.testbit_neg_r (Z.ones 2) (i - 29)) by lia.
    destruct (Z.leb_spec 5 i) as [B|B]; cbn [andb orb negb].
    + rewrite Z.shiftr_spec, ones_testbit by lia.
      destruct (Z.ltb_spec (i - 5) 19), (Z.ltb_spec i 24);
      try lia; cbn [andb orb negb]; rewrite ?andb_false_r, ?andb_true_r, ?orb_false_r; reflexivity.
    + rewrite (Z.testbit_neg_r (Z.ones 19) (i - 5)) by lia.
      cbn [andb orb negb]; rewrite ?andb_false_r, ?andb_true_r, ?orb_false_r; reflexivity.
Qed.

(** Simple (one range) kinds. *)
Definition simple_range (t : imm_type) : option (Z * Z) :=
  match t with
  | IMM_26 => Some (0, 26) | IMM_19 => Some (5, 19) | IMM_16 => Some (5, 16)
  | IMM_14 => Some (5, 14) | IMM_12 => Some (10, 12) | IMM_9 => Some (12, 9)
  | IMM_7 => Some (15, 7) | IMM_6 | IMM_S => Some (10, 6) | IMM_R => Some (16, 6)
  | IMM_N => Some (22, 1) | IMM_ADR | IMM_MAX => None
  end.

Lemma simple_encode t lo w insn imm : simple_range t = Some (lo, w) ->
  insn <> AARCH64_BREAK_FAULT ->
  encode_immediate t insn imm = put_field insn (Z.ones w) lo imm /\
  field_ranges t = [(lo, w)] /\ 0 <= lo /\ 0 < w /\ lo + w <= 32.
Proof.
  intros Ht Hf. unfold encode_immediate.
  destruct (Z.eqb_spec insn AARCH64_BREAK_FAULT); [contradiction|].
  destruct t; cbn in Ht; try discriminate; injection Ht as <- <-; repeat split; try lia; reflexivity.
Qed.

Lemma simple_decode t lo w insn : simple_range t = Some (lo, w) ->
  decode_immediate t insn = Z.land (Z.shiftr insn lo) (Z.ones w).
Proof.
  intros Ht. destruct t; cbn in Ht; try discriminate; injection Ht as <- <-; reflexivity.
Qed.

Lemma kind_cases t : t = IMM_ADR \/ t = IMM_MAX \/ exists lo w, simple_range t = Some (lo, w).
Proof. destruct t; auto; right; right; cbn [simple_range]; eauto. Qed.

Lemma encode_testbit_simple t lo w insn imm i : simple_range t = Some (lo, w) ->
  0 <= insn < 2 ^ 32 -> insn <> AARCH64_BREAK_FAULT -> 0 <= i ->
  Z.testbit (encode_immediate t insn imm) i =
  if (lo <=? i) && (i <? lo + w) then Z.testbit imm (i - lo) else Z.testbit insn i.
Proof.
  intros Ht Hin Hf Hi. destruct (simple_encode t lo w insn imm Ht Hf) as (-> & _ & A & B & C).
  apply put_field_testbit; lia.
Qed.

(** Range of the result. *)
Lemma encode_range t insn imm : 0 <= encode_immediate t insn imm < 2 ^ 32.
Proof.
  unfold encode_immediate. destruct (insn =? AARCH64_BREAK_FAULT); [vm_compute; intuition discriminate|].
  assert (P : forall a b c d, 0 <= put_field a b c d < 2 ^ 32).
  { intros. unfold put_field, u32. apply wrap_range. lia. }
  destruct (kind_cases t) as [-> | [-> | (lo & w & Ht)]]; try apply P.
  - vm_compute; intuition discriminate.
  - destruct t; cbn in Ht; try discriminate; apply P.
Qed.

Lemma bits_eq a b n : 0 <= n -> 0 <= a < 2 ^ n -> 0 <= b < 2 ^ n ->
  (forall i, 0 <= i < n -> Z.testbit a i = Z.testbit b i) -> a = b.
Proof.
  intros Hn Ha Hb H. apply Z.bits_inj'. intros i Hi.
  destruct (Z.lt_ge_cases i n); [apply H; lia|].
  replace a with (a mod 2 ^ n) by (apply Z.mod_small; lia).
  replace b with (b mod 2 ^ n) by (apply Z.mod_small; lia).
  rewrite !Z.mod_pow2_bits_high by lia. reflexivity.
Qed.

(** [a + 2^k b] as a concatenation. *)
Lemma concat_testbit a b k i : 0 <= k -> 0 <= a < 2 ^ k -> 0 <= i ->
  Z.testbit (a + 2 ^ k * b) i = if i <? k then Z.testbit a i else Z.testbit b (i - k).
Proof.
  intros Hk Ha Hi. destruct (Z.ltb_spec i k).
  - rewrite <- (Z.mod_pow2_bits_low (a + 2 ^ k * b) k) by lia.
    rewrite Z.mul_comm, Z_mod_plus_full, Z.mod_small by lia. reflexivity.
  - replace i with ((i - k) + k) at 1 by lia. rewrite <- Z.shiftr_spec by lia.
    rewrite Z.shiftr_div_pow2 by lia. f_equal.
    rewrite Z.mul_comm, Z.div_add by (pose proof (pow2_pos k); lia).
    rewrite Z.div_small by lia. lia.
Qed.

Lemma bits_range v lo n : 0 <= n -> 0 <= bits v lo n < 2 ^ n.
Proof. intros. apply Z.mod_pos_bound, pow2_pos. lia. Qed.

Lemma imm_of_adr insn : imm_of IMM_ADR insn = bits insn 29 2 + 2 ^ 2 * bits insn 5 19.
Proof. unfold imm_of, field_ranges, gather. lia. Qed.

Lemma imm_of_simple t lo w insn : simple_range t = Some (lo, w) -> imm_of t insn = bits insn lo w.
Proof.
  intros Ht. destruct t; cbn in Ht; try discriminate; injection Ht as <- <-;
    unfold imm_of, field_ranges, gather; lia.
Qed.

Lemma imm_width_simple t lo w : simple_range t = Some (lo, w) -> imm_width t = w.
Proof. intros Ht. destruct t; cbn in Ht; try discriminate; injection Ht as <- <-; reflexivity. Qed.

Lemma fault_eq : AARCH64_BREAK_FAULT = brk_fault.
Proof. reflexivity. Qed.

(** ** Encoding *)

Lemma encode_reads_back t insn imm :
  0 <= insn < 2 ^ 32 -> insn <> brk_fault -> t <> IMM_MAX ->
  imm_of t (encode_immediate t insn imm) = imm mod 2 ^ imm_width t.
Proof.
  intros Hin Hf Ht. rewrite <- fault_eq in Hf.
  destruct (kind_cases t) as [-> | [-> | (lo & w & Hs)]]; [|congruence|].
  - rewrite imm_of_adr. change (imm_width IMM_ADR) with 21.
    pose proof (bits_range (encode_immediate IMM_ADR insn imm) 29 2 ltac:(lia)) as R1.
    pose proof (bits_range (encode_immediate IMM_ADR insn imm) 5 19 ltac:(lia)) as R2.
    apply (bits_eq _ _ 21); [lia| change (2 ^ 21) with (2 ^ 2 * 2 ^ 19) in *; lia
                            | apply Z.mod_pos_bound; lia |].
    intros i Hi. rewrite concat_testbit by lia. rewrite Z.mod_pow2_bits_low by lia.
    destruct (Z.ltb_spec i 2).
    + rewrite bits_testbit by lia. destruct (Z.ltb_spec i 2); [|lia].
      rewrite adr_testbit by lia. destruct (Z.leb_spec 29 (i + 29)), (Z.ltb_spec (i + 29) 31); try lia.
      cbn [andb orb negb]. f_equal. lia.
    + rewrite bits_testbit by lia. destruct (Z.ltb_spec (i - 2) 19); [|lia].
      rewrite adr_testbit by lia.
      destruct (Z.leb_spec 29 (i - 2 + 5)), (Z.leb_spec 5 (i - 2 + 5)), (Z.ltb_spec (i - 2 + 5) 24); try lia.
      cbn [andb orb negb]. f_equal. lia.
  - rewrite (imm_of_simple t lo w) by auto. rewrite (imm_width_simple t lo w) by auto.
    destruct (simple_encode t lo w insn imm Hs Hf) as (_ & _ & A & B & C).
    apply (bits_eq _ _ w); [lia|apply bits_range; lia|apply Z.mod_pos_bound, pow2_pos; lia|].
    intros i Hi. rewrite bits_testbit, Z.mod_pow2_bits_low by lia.
    destruct (Z.ltb_spec i w); [|lia]. rewrite (encode_testbit_simple t lo w) by (auto; lia).
    destruct (Z.leb_spec lo (i + lo)), (Z.ltb_spec (i + lo) (lo + w)); try lia.
    cbn [andb orb negb]. f_equal. lia.
Qed.

Lemma encode_same_outside t insn imm :
  0 <= insn < 2 ^ 32 -> insn <> brk_fault -> t <> IMM_MAX ->
  same_outside t (encode_immediate t insn imm) insn.
Proof.
  intros Hin Hf Ht i Hi Hout. rewrite <- fault_eq in Hf.
  destruct (kind_cases t) as [-> | [-> | (lo & w & Hs)]]; [|congruence|].
  - rewrite adr_testbit by auto.
    destruct ((29 <=? i) && (i <? 31)) eqn:E1.
    + exfalso. apply Hout. exists 29, 2. split; [left; reflexivity|lia].
    + destruct ((5 <=? i) && (i <? 24)) eqn:E2; auto.
      exfalso. apply Hout. exists 5, 19. split; [right; left; reflexivity|lia].
  - rewrite (encode_testbit_simple t lo w) by auto.
    destruct (simple_encode t lo w insn imm Hs Hf) as (_ & R & _ & _ & _).
    destruct ((lo <=? i) && (i <? lo + w)) eqn:E1; auto.
    exfalso. apply Hout. exists lo, w. rewrite R. split; [left; reflexivity|lia].
Qed.

Lemma decode_is_imm_of t insn : 0 <= insn < 2 ^ 32 -> decode_immediate t insn = imm_of t insn.
Proof.
  intros Hin.
  destruct (kind_cases t) as [-> | [-> | (lo & w & Hs)]].
  - rewrite imm_of_adr. unfold decode_immediate. cbv zeta.
    change ADR_IMM_LOMASK with (Z.ones 2). change ADR_IMM_HIMASK with (Z.ones 19).
    change ADR_IMM_LOSHIFT with 29. change ADR_IMM_HISHIFT with 5. change ADR_IMM_HILOSPLIT with 2.
    change (ADR_IMM_SIZE - 1) with (Z.ones 21). rewrite Z.shiftr_0_r.
    pose proof (bits_range insn 29 2 ltac:(lia)) as R1.
    apply Z.bits_inj'. intros i Hi. rewrite concat_testbit by lia.
    unfold u32. rewrite Z.land_spec, Z.lor_spec, wrap_testbit, Z.shiftl_spec, ones_testbit by lia.
    rewrite (Z.land_spec (Z.shiftr insn 29)), (Z.shiftr_spec insn 29), (ones_testbit 2) by lia.
    destruct (Z.ltb_spec i 2) as [A|A].
    + rewrite bits_testbit by lia.
      rewrite (Z.testbit_neg_r _ (i - 2)) by lia.
      destruct (Z.ltb_spec i 2), (Z.ltb_spec i 21), (Z.ltb_spec i 32); try lia.
      cbn [andb orb negb]. rewrite !andb_true_r. reflexivity.
    + rewrite bits_testbit by lia. rewrite Z.land_spec, Z.shiftr_spec, ones_testbit by lia.
      destruct (Z.ltb_spec (i - 2) 19), (Z.ltb_spec i 21), (Z.ltb_spec i 32); try lia;
        cbn [andb orb negb]; rewrite ?andb_true_r, ?andb_false_r, ?orb_false_r; reflexivity.
  - reflexivity.
  - rewrite (imm_of_simple t lo w), (simple_decode t lo w) by auto.
    assert (R : 0 <= lo /\ 0 < w) by (destruct t; cbn in Hs; try discriminate; injection Hs as <- <-; lia).
    unfold bits. rewrite <- Z.shiftr_div_pow2, Z.land_ones by lia. reflexivity.
Qed.

Lemma encode_round_trip t insn imm :
  0 <= insn < 2 ^ 32 -> insn <> brk_fault -> t <> IMM_MAX ->
  decode_immediate t (encode_immediate t insn imm) = imm mod 2 ^ imm_width t /\
  imm_of t (encode_immediate t insn imm) = imm mod 2 ^ imm_width t /\
  same_outside t (encode_immediate t insn imm) insn /\
  0 <= encode_immediate t insn imm < 2 ^ 32.
Proof.
  intros Hin Hf Ht. rewrite decode_is_imm_of by apply encode_range.
  auto using encode_reads_back, encode_same_outside, encode_range.
Qed.

Lemma encode_fault t insn imm : insn = brk_fault \/ t = IMM_MAX ->
  encode_immediate t insn imm = brk_fault.
Proof.
  unfold encode_immediate. rewrite <- fault_eq. intros [-> | ->].
  - rewrite Z.eqb_refl. reflexivity.
  - destruct (_ =? _); reflexivity.
Qed.

(** ** Relocation values *)

Lemma land_page x : 0 <= x < 2 ^ 64 -> Z.land x (u64 (Z.lnot 0xfff)) = x / 4096 * 4096.
Proof.
  intros Hx. apply Z.bits_inj'. intros i Hi. unfold u64.
  rewrite Z.land_spec, wrap_testbit, Z.lnot_spec by lia.
  change 4095 with (Z.ones 12). rewrite ones_testbit by lia.
  change 4096 with (2 ^ 12). rewrite <- Z.shiftl_mul_pow2, <- Z.shiftr_div_pow2 by lia.
  rewrite Z.shiftl_spec by lia.
  destruct (Z.ltb_spec i 12).
  - rewrite (Z.testbit_neg_r _ (i - 12)) by lia. cbn [andb orb negb]. destruct (i <? 64); apply andb_false_r.
  - rewrite Z.shiftr_spec by lia. replace (i - 12 + 12) with i by lia.
    destruct (Z.ltb_spec i 64); cbn [andb orb negb]; [apply andb_true_r|].
    replace x with (x mod 2 ^ 64) by (apply Z.mod_small; lia).
    rewrite Z.mod_pow2_bits_high by lia. reflexivity.
Qed.

Lemma do_reloc_value op place val : 0 <= place < 2 ^ 64 -> 0 <= val < 2 ^ 64 ->
  s64 (do_reloc op place val) = sval op val place.
Proof.
  intros Hp Hv. unfold sval. rewrite sx_sgn by lia. unfold s64.
  destruct op; cbn [do_reloc reloc_value]; try reflexivity.
  - unfold u64. apply sgn_wrap. lia.
  - rewrite !land_page by lia. unfold u64. apply sgn_wrap. lia.
Qed.

Lemma sval_range op SA P : - 2 ^ 63 <= sval op SA P < 2 ^ 63.
Proof. unfold sval. rewrite sx_sgn by lia. apply (sgn_range 64). lia. Qed.

(** ** reloc_insn_imm *)

Lemma imm_mask_ones lsb len : 0 <= lsb -> 0 < len -> lsb + len < 64 ->
  Z.shiftr (BIT (lsb + len) - 1) lsb = Z.ones len.
Proof.
  intros H1 H2 H3. unfold BIT, u64. rewrite Z.shiftl_1_l.
  rewrite wrap_id by (split; [pose proof (pow2_pos (lsb + len)); lia|apply Z.pow_lt_mono_r; lia]).
  replace (2 ^ (lsb + len) - 1) with (Z.ones (lsb + len)) by (rewrite Z.ones_equiv; lia).
  rewrite Z.shiftr_div_pow2 by lia.
  rewrite Z.ones_div_pow2 by lia. f_equal. lia.
Qed.

(** The overflow test of [reloc_insn_imm]: masking the low [len-1] bits and
    shifting leaves [v / 2^(len-1)]. *)
Lemma imm_upper v len : 0 < len <= 64 -> - 2 ^ 63 <= v < 2 ^ 63 ->
  Z.shiftr (s64 (Z.land v (Z.lnot (Z.shiftr (Z.ones len) 1)))) (len - 1) = v / 2 ^ (len - 1).
Proof.
  intros Hl Hv.
  assert (E1 : Z.shiftr (Z.ones len) 1 = Z.ones (len - 1)).
  { rewrite Z.shiftr_div_pow2, Z.ones_div_pow2 by lia. reflexivity. }
  rewrite E1. rewrite <- Z.ldiff_land, Z.ldiff_ones_r by lia.
  rewrite Z.shiftl_mul_pow2, (Z.shiftr_div_pow2 v) by lia.
  set (q := v / 2 ^ (len - 1)).
  assert (Hp : 0 < 2 ^ (len - 1)) by (apply pow2_pos; lia).
  unfold s64. rewrite sgn_id; [|lia|].
  - rewrite Z.shiftr_div_pow2, Z.div_mul by lia. reflexivity.
  - change (64 - 1) with 63.
    assert (E2 : 2 ^ (len - 1) * 2 ^ (64 - len) = 2 ^ 63) by (rewrite <- Z.pow_add_r by lia; f_equal; lia).
    split.
    + assert (- 2 ^ (64 - len) <= q) by (apply Z.div_le_lower_bound; lia). nia.
    + pose proof (Z.mul_div_le v (2 ^ (len - 1)) Hp) as H. fold q in H. lia.
Qed.

Lemma imm_ovf_iff v len : 0 < len <= 64 -> - 2 ^ 63 <= v < 2 ^ 63 ->
  (2 <=? u64 (v / 2 ^ (len - 1) + 1)) = false <-> in_signed len v.
Proof.
  intros Hl Hv. unfold in_signed.
  assert (Hp : 0 < 2 ^ (len - 1)) by (apply pow2_pos; lia).
  pose proof (Z.div_mod v (2 ^ (len - 1)) ltac:(lia)) as D.
  pose proof (Z.mod_pos_bound v (2 ^ (len - 1)) Hp) as M.
  set (q := v / 2 ^ (len - 1)) in *. set (p := 2 ^ (len - 1)) in *.
  assert (Hq : - 2 ^ 63 <= q < 2 ^ 63) by nia.
  unfold u64, wrap. split.
  - intros H. assert (Hr : 0 <= (q + 1) mod 2 ^ 64 < 2) by lia.
    assert (q = 0 \/ q = -1) by lia. nia.
  - intros H. assert (q = 0 \/ q = -1) as [-> | ->] by nia; reflexivity.
Qed.

Lemma shiftr_range v n : 0 <= n -> - 2 ^ 63 <= v < 2 ^ 63 -> - 2 ^ 63 <= Z.shiftr v n < 2 ^ 63.
Proof.
  intros Hn Hv. rewrite Z.shiftr_div_pow2 by lia. pose proof (pow2_pos n Hn) as Hp.
  split.
  - apply Z.div_le_lower_bound; nia.
  - apply Z.div_lt_upper_bound; nia.
Qed.

(** [imm_insn] for all used parameters. *)
Lemma imm_insn_spec op place insn val lsb len t ret insn' :
  0 <= insn < 2 ^ 32 -> 0 <= place < 2 ^ 64 -> 0 <= val < 2 ^ 64 ->
  0 <= lsb -> 0 < len -> lsb + len < 64 ->
  imm_insn op place insn val lsb len t = (ret, insn') ->
  insn' = encode_immediate t insn ((sval op val place / 2 ^ lsb) mod 2 ^ len) /\
  (ret = 0 \/ ret = - ERANGE) /\
  (ret = 0 <-> in_signed len (sval op val place / 2 ^ lsb)).
Proof.
  intros Hi Hp Hv Hl Hn Hs E. unfold imm_insn in E. cbv zeta in E.
  rewrite do_reloc_value, imm_mask_ones in E by lia.
  pose proof (sval_range op val place) as R.
  pose proof (shiftr_range _ lsb Hl R) as R2.
  rewrite imm_upper in E by lia.
  rewrite Z.land_ones in E by lia. rewrite (Z.shiftr_div_pow2 _ lsb) in E, R2 by lia.
  pose proof (imm_ovf_iff _ len ltac:(lia) R2) as O.
  set (v := sval op val place / 2 ^ lsb) in *.
  assert (W : u64 (v mod 2 ^ len) = v mod 2 ^ len).
  { apply wrap_id. pose proof (Z.mod_pos_bound v (2 ^ len) (pow2_pos len ltac:(lia))) as M.
    assert (2 ^ len <= 2 ^ 64) by (apply Z.pow_le_mono_r; lia). lia. }
  rewrite W in E. injection E as <- <-. split; [reflexivity|].
  destruct (2 <=? u64 _); split; auto; rewrite <- O; unfold ERANGE; intuition (lia || discriminate).
Qed.

(** Reading back: the field, sign-extended and shifted, is the value without its
    low bits. *)
Lemma signed_readback v len : 0 < len -> in_signed len v -> sx len (v mod 2 ^ len) = v.
Proof.
  intros Hl Hv. rewrite sx_sgn by lia. change (v mod 2 ^ len) with (wrap len v).
  rewrite sgn_wrap by lia. apply sgn_id; auto.
Qed.

Lemma imm_insn_readback op place insn val lsb len t ret insn' :
  0 <= insn < 2 ^ 32 -> insn <> brk_fault -> t <> IMM_MAX ->
  0 <= place < 2 ^ 64 -> 0 <= val < 2 ^ 64 ->
  0 <= lsb -> 0 < len -> lsb + len < 64 -> len <= imm_width t ->
  imm_insn op place insn val lsb len t = (ret, insn') ->
  imm_of t insn' = (sval op val place / 2 ^ lsb) mod 2 ^ len /\
  same_outside t insn' insn /\
  (ret = 0 \/ ret = - ERANGE) /\
  (ret = 0 <-> in_signed len (sval op val place / 2 ^ lsb)) /\
  (ret = 0 -> sx len (imm_of t insn') * 2 ^ lsb = sval op val place - sval op val place mod 2 ^ lsb).
Proof.
  intros Hi Hf Ht Hp Hv Hl Hn Hs Hw E.
  destruct (imm_insn_spec _ _ _ _ _ _ _ _ _ Hi Hp Hv Hl Hn Hs E) as (-> & Hr & Hiff).
  set (v := sval op val place / 2 ^ lsb) in *.
  assert (Him : imm_of t (encode_immediate t insn (v mod 2 ^ len)) = v mod 2 ^ len).
  { rewrite encode_reads_back by auto. apply Z.mod_small.
    pose proof (Z.mod_pos_bound v (2 ^ len) (pow2_pos len ltac:(lia))).
    assert (2 ^ len <= 2 ^ imm_width t) by (apply Z.pow_le_mono_r; lia). lia. }
  rewrite Him. split; [reflexivity|]. split; [apply encode_same_outside; auto|].
  split; [exact Hr|]. split; [exact Hiff|].
  { intros H0. rewrite signed_readback by (auto; apply Hiff; auto).
    subst v. pose proof (Z.div_mod (sval op val place) (2 ^ lsb) ltac:(pose proof (pow2_pos lsb); lia)). lia. }
Qed.

(** ** reloc_data *)

Lemma st_congr n m a v w : v mod 2 ^ (8 * Z.of_nat n) = w mod 2 ^ (8 * Z.of_nat n) ->
  forall x, st n m a v x = st n m a w x.
Proof.
  intros H x. unfold st. destruct (Z.leb_spec a x), (Z.ltb_spec x (a + Z.of_nat n)); cbn [andb]; auto.
  set (k := x - a). assert (Hk : 0 <= k < Z.of_nat n) by lia.
  assert (G : forall u, u / 2 ^ (8 * k) mod 256 = (u mod 2 ^ (8 * Z.of_nat n)) / 2 ^ (8 * k) mod 256).
  { intros u. change 256 with (2 ^ 8). rewrite <- !Z.shiftr_div_pow2 by lia.
    apply Z.bits_inj'. intros i Hi.
    destruct (Z.lt_ge_cases i 8).
    - rewrite !Z.mod_pow2_bits_low, !Z.shiftr_spec, Z.mod_pow2_bits_low by lia. reflexivity.
    - rewrite !Z.mod_pow2_bits_high by lia. reflexivity. }
  rewrite (G v), (G w), H. reflexivity.
Qed.

Lemma sval_mod op SA P n : 0 <= n <= 64 ->
  sval op SA P mod 2 ^ n = reloc_value op SA P mod 2 ^ n.
Proof.
  intros Hn. unfold sval. rewrite sx_sgn by lia.
  destruct (sgn_congr 64 (reloc_value op SA P) ltac:(lia)) as [k ->].
  replace (k * 2 ^ 64) with (k * 2 ^ (64 - n) * 2 ^ n).
  - apply Z_mod_plus_full.
  - rewrite <- Z.mul_assoc, <- Z.pow_add_r by lia. do 2 f_equal. lia.
Qed.

Lemma reloc_data_spec op m place val len ret m' :
  (op = OP_ABS \/ op = OP_PREL) -> (len = 16 \/ len = 32 \/ len = 64) ->
  0 <= place < 2 ^ 64 -> 0 <= val < 2 ^ 64 ->
  reloc_data op m place val len = (ret, m') ->
  (ret = 0 \/ ret = - ERANGE) /\
  (ret = - ERANGE <->
     match op with
     | OP_ABS => len <> 64 /\ ~ in_unsigned len (sval op val place)
     | _ => len <> 64 /\ ~ in_signed len (sval op val place)
     end) /\
  ld (Z.to_nat (len / 8)) m' place = reloc_value op val place mod 2 ^ len /\
  (forall x, x < place \/ place + len / 8 <= x -> m' x = m x).
Proof.
  intros Hop Hlen Hp Hv E. unfold reloc_data in E. cbv zeta in E.
  rewrite do_reloc_value in E by auto.
  set (v := sval op val place) in *.
  assert (Hst : forall n, (n <= 8)%nat ->
    ld n (st n m place v) place = reloc_value op val place mod 2 ^ (8 * Z.of_nat n)).
  { intros n Hn. rewrite ld_st. apply sval_mod. lia. }
  assert (Hout : forall n x, x < place \/ place + Z.of_nat n <= x -> st n m place v x = m x).
  { intros n x Hx. apply st_out. auto. }
  unfold in_unsigned, in_signed, ERANGE in *.
  destruct Hlen as [-> | [-> | ->]]; destruct Hop as [-> | ->];
    cbn [Z.eqb] in E;
    repeat match type of E with
    | (if ?a =? ?b then _ else _) = _ => change (a =? b) with true in E || change (a =? b) with false in E; cbv iota in E
    end;
    injection E as <- <-;
    (split; [match goal with |- context [if ?b then _ else _] => destruct b | _ => idtac end; auto|]);
    (split; [|split; [apply (Hst 2%nat) || apply (Hst 4%nat) || apply (Hst 8%nat); lia
             | intros x Hx; apply (Hout 2%nat) + apply (Hout 4%nat) + apply (Hout 8%nat);
               cbn in Hx |- *; lia]]);
    try match goal with |- context [if ?b then _ else _] => destruct b eqn:? end; lia.
Qed.

(** ** reloc_insn_movw *)

Lemma movw_fields i1 op2 : 0 <= op2 < 4 -> forall i, 0 <= i ->
  Z.testbit (Z.lor (Z.land i1 (u32 (Z.lnot (Z.shiftl 3 29)))) (Z.shiftl op2 29)) i =
  if i <? 32 then (if (29 <=? i) && (i <? 31) then Z.testbit op2 (i - 29) else Z.testbit i1 i) else false.
Proof.
  intros Ho i Hi. unfold u32. rewrite Z.lor_spec, Z.land_spec, wrap_testbit, Z.lnot_spec by lia.
  rewrite !Z.shiftl_spec by lia. change 3 with (Z.ones 2).
  assert (Hop2 : forall k, 2 <= k -> Z.testbit op2 k = false).
  { intros k Hk. replace op2 with (op2 mod 2 ^ 2) by (apply Z.mod_small; lia).
    apply Z.mod_pow2_bits_high. lia. }
  destruct (Z.ltb_spec i 32).
  - destruct (Z.leb_spec 29 i).
    + rewrite ones_testbit by lia. destruct (Z.ltb_spec (i - 29) 2), (Z.ltb_spec i 31); try lia; cbn [andb orb negb].
      * rewrite andb_false_r. reflexivity.
      * rewrite Hop2 by lia. rewrite andb_true_r, orb_false_r. reflexivity.
    + rewrite !(Z.testbit_neg_r _ (i - 29)) by lia. cbn [andb orb negb].
      rewrite andb_true_r, orb_false_r. reflexivity.
  - rewrite andb_false_r. apply Hop2. lia.
Qed.

Lemma move_wide_not_fault insn : is_move_wide insn -> insn <> brk_fault.
Proof. intros H ->. discriminate H. Qed.

Definition set_opc (insn opc : Z) : Z :=
  Z.lor (Z.land insn (u32 (Z.lnot (Z.shiftl 3 29)))) (Z.shiftl opc 29).

Lemma set_opc_range insn opc : 0 <= insn < 2 ^ 32 -> 0 <= opc < 4 -> 0 <= set_opc insn opc < 2 ^ 32.
Proof.
  intros Hi Ho.
  assert (E : set_opc insn opc = wrap 32 (set_opc insn opc)).
  { apply Z.bits_inj'. intros i H. rewrite wrap_testbit by lia.
    unfold set_opc at 1. rewrite movw_fields by lia. unfold set_opc. rewrite movw_fields by lia.
    destruct (i <? 32); reflexivity. }
  rewrite E. apply wrap_range. lia.
Qed.

Lemma set_opc_bits insn opc lo n : 0 <= opc < 4 -> 0 <= lo -> 0 <= n ->
  lo + n <= 29 \/ (31 <= lo /\ lo + n <= 32) ->
  bits (set_opc insn opc) lo n = bits insn lo n.
Proof.
  intros Ho Hl Hn Hr. apply Z.bits_inj'. intros i Hi. rewrite !bits_testbit by lia.
  destruct (Z.ltb_spec i n); auto. unfold set_opc. rewrite movw_fields by lia.
  destruct (Z.ltb_spec (i + lo) 32); [|lia].
  destruct (Z.leb_spec 29 (i + lo)), (Z.ltb_spec (i + lo) 31); try lia; reflexivity.
Qed.

Lemma set_opc_opc insn opc : 0 <= opc < 4 -> bits (set_opc insn opc) 29 2 = opc.
Proof.
  intros Ho. apply (bits_eq _ _ 2); [lia|apply bits_range; lia|lia|].
  intros i Hi. rewrite bits_testbit by lia. destruct (Z.ltb_spec i 2); [|lia].
  unfold set_opc. rewrite movw_fields by lia.
  destruct (Z.ltb_spec (i + 29) 32), (Z.leb_spec 29 (i + 29)), (Z.ltb_spec (i + 29) 31); try lia.
  cbn [andb]. f_equal. lia.
Qed.

Lemma lnot_bits_opc insn : Z.land insn (u32 (Z.lnot (Z.shiftl 3 29))) = set_opc insn 0.
Proof. unfold set_opc. rewrite Z.shiftl_0_l, Z.lor_0_r. reflexivity. Qed.

(** Which bits a MOVW relocation may change: 5..20, and for the signed forms the
    two opcode bits 29, 30. *)
Definition movw_may_change (t : movw_type) (i : Z) : Prop :=
  5 <= i < 21 \/ (t = MOVNZ /\ 29 <= i < 31).

Lemma encode16_outside insn imm i : 0 <= insn < 2 ^ 32 -> insn <> brk_fault -> 0 <= i ->
  ~ (5 <= i < 21) -> Z.testbit (encode_immediate IMM_16 insn imm) i = Z.testbit insn i.
Proof.
  intros H1 H2 H3 H4. apply encode_same_outside; auto; [discriminate|].
  intros (lo & w & [E|[]] & Hx). injection E as <- <-. lia.
Qed.

Lemma encode16_opc insn imm : 0 <= insn < 2 ^ 32 -> insn <> brk_fault ->
  bits (encode_immediate IMM_16 insn imm) 29 2 = bits insn 29 2.
Proof.
  intros H1 H2. apply Z.bits_inj'. intros i Hi. rewrite !bits_testbit by lia.
  destruct (Z.ltb_spec i 2); auto. apply encode16_outside; auto; lia.
Qed.

Lemma movw_kz_spec op place insn val lsb ret insn' :
  0 <= insn < 2 ^ 32 -> is_move_wide insn -> 0 <= place < 2 ^ 64 -> 0 <= val < 2 ^ 64 -> 0 <= lsb ->
  movw_insn op place insn val lsb MOVKZ = (ret, insn') ->
  imm_of IMM_16 insn' = (sval op val place / 2 ^ lsb) mod 2 ^ 16 /\
  (forall i, 0 <= i -> ~ movw_may_change MOVKZ i -> Z.testbit insn' i = Z.testbit insn i) /\
  (ret = 0 \/ ret = - ERANGE) /\
  (ret = 0 <-> 0 <= sval op val place / 2 ^ lsb < 2 ^ 16).
Proof.
  intros Hi Hm Hp Hv Hl E. apply move_wide_not_fault in Hm.
  unfold movw_insn in E. cbv zeta in E. rewrite do_reloc_value in E by auto.
  pose proof (shiftr_range _ lsb Hl (sval_range op val place)) as R.
  rewrite (Z.shiftr_div_pow2 _ lsb) in E, R by lia.
  set (q := sval op val place / 2 ^ lsb) in *. injection E as <- <-.
  rewrite encode_reads_back by (auto; discriminate). change (imm_width IMM_16) with 16.
  split; [|split; [|split]].
  - unfold u64, wrap. apply mod_pow_mod. lia.
  - intros i H0 Hc. apply encode16_outside; auto. unfold movw_may_change in Hc. tauto.
  - destruct (_ <? _); auto.
  - unfold u64, wrap, ERANGE in *. destruct (Z.ltb_spec 65535 (q mod 2 ^ 64)); lia.
Qed.

Lemma movw_nz_spec op place insn val lsb ret insn' :
  0 <= insn < 2 ^ 32 -> is_move_wide insn -> 0 <= place < 2 ^ 64 -> 0 <= val < 2 ^ 64 -> 0 <= lsb ->
  movw_insn op place insn val lsb MOVNZ = (ret, insn') ->
  let q := sval op val place / 2 ^ lsb in
  bits insn' 29 2 = (if 0 <=? sval op val place then 2 else 0) /\
  imm_of IMM_16 insn' = (if 0 <=? sval op val place then q else - q - 1) mod 2 ^ 16 /\
  (forall i, 0 <= i -> ~ movw_may_change MOVNZ i -> Z.testbit insn' i = Z.testbit insn i) /\
  (ret = 0 \/ ret = - ERANGE) /\
  (ret = 0 <-> - 2 ^ 16 <= q < 2 ^ 16).
Proof.
  intros Hi Hm Hp Hv Hl E q.
  unfold movw_insn in E. cbv zeta in E. rewrite do_reloc_value in E by auto.
  pose proof (sval_range op val place) as R0.
  pose proof (shiftr_range _ lsb Hl R0) as R.
  rewrite (Z.shiftr_div_pow2 _ lsb) in E, R by lia. fold q in E, R.
  rewrite lnot_bits_opc in E.
  assert (Hop : forall opc, 0 <= opc < 4 ->
    0 <= set_opc insn opc < 2 ^ 32 /\ set_opc insn opc <> brk_fault).
  { intros opc Ho. split; [apply set_opc_range; auto|]. apply move_wide_not_fault.
    unfold is_move_wide. rewrite set_opc_bits by lia. exact Hm. }
  assert (Hout : forall opc imm i, 0 <= opc < 4 -> 0 <= i -> ~ movw_may_change MOVNZ i ->
    Z.testbit (encode_immediate IMM_16 (set_opc insn opc) imm) i = Z.testbit insn i).
  { intros opc imm i Ho H0 Hc. destruct (Hop opc Ho) as [A B]. unfold movw_may_change in Hc.
    rewrite encode16_outside by (auto; tauto). unfold set_opc. rewrite movw_fields by lia.
    destruct (Z.ltb_spec i 32).
    - destruct (Z.leb_spec 29 i), (Z.ltb_spec i 31); try reflexivity. exfalso. apply Hc. right. auto.
    - symmetry. apply small_testbit; auto. }
  assert (Hq : 0 <= sval op val place <-> 0 <= q).
  { subst q. pose proof (pow2_pos lsb Hl). split; intros.
    - apply Z.div_pos; lia.
    - pose proof (Z.mul_div_le (sval op val place) (2 ^ lsb)). nia. }
  destruct (Z.leb_spec 0 (sval op val place)) as [P|P].
  - assert (E2 : Z.lor (set_opc insn 0) (Z.shiftl 2 29) = set_opc insn 2).
    { rewrite <- lnot_bits_opc. reflexivity. }
    rewrite E2 in E. injection E as <- <-. destruct (Hop 2 ltac:(lia)) as [A B].
    rewrite encode16_opc, set_opc_opc by (auto; lia).
    rewrite encode_reads_back by (auto; discriminate). change (imm_width IMM_16) with 16.
    repeat split.
    + unfold u64, wrap. apply mod_pow_mod. lia.
    + intros i H0 Hc. apply Hout; auto; lia.
    + destruct (_ <? _); auto.
    + unfold u64, wrap, ERANGE in *. destruct (Z.ltb_spec 65535 (q mod 2 ^ 64)); lia.
    + unfold u64, wrap, ERANGE in *. destruct (Z.ltb_spec 65535 (q mod 2 ^ 64)); lia.
    + unfold u64, wrap, ERANGE in *. destruct (Z.ltb_spec 65535 (q mod 2 ^ 64)); lia.
  - injection E as <- <-. destruct (Hop 0 ltac:(lia)) as [A B].
    rewrite encode16_opc, set_opc_opc by (auto; lia).
    rewrite encode_reads_back by (auto; discriminate). change (imm_width IMM_16) with 16.
    assert (Hn : u64 (Z.lnot (u64 q)) = - q - 1).
    { unfold u64, wrap, Z.lnot. lia. }
    rewrite Hn. repeat split.
    + intros i H0 Hc. apply Hout; auto; lia.
    + destruct (_ <? _); auto.
    + unfold ERANGE in *. destruct (Z.ltb_spec 65535 (- q - 1)); lia.
    + unfold ERANGE in *. destruct (Z.ltb_spec 65535 (- q - 1)); lia.
    + unfold ERANGE in *. destruct (Z.ltb_spec 65535 (- q - 1)); lia.
Qed.

Lemma movw_nz_value op place insn val lsb insn' :
  0 <= insn < 2 ^ 32 -> is_move_wide insn -> 0 <= place < 2 ^ 64 -> 0 <= val < 2 ^ 64 -> 0 <= lsb ->
  movw_insn op place insn val lsb MOVNZ = (0, insn') ->
  exists v, move_wide_value insn' lsb = Some v /\
    v / 2 ^ lsb = sval op val place / 2 ^ lsb /\ (lsb = 0 -> v = sval op val place).
Proof.
  intros Hi Hm Hp Hv Hl E.
  destruct (movw_nz_spec _ _ _ _ _ _ _ Hi Hm Hp Hv Hl E) as (Ho & Him & _ & _ & Hr).
  destruct Hr as [Hr _]. specialize (Hr eq_refl).
  set (q := sval op val place / 2 ^ lsb) in *.
  pose proof (pow2_pos lsb Hl) as Hpos.
  assert (Hq : 0 <= sval op val place <-> 0 <= q).
  { subst q. split; intros.
    - apply Z.div_pos; lia.
    - pose proof (Z.mul_div_le (sval op val place) (2 ^ lsb)). nia. }
  unfold move_wide_value. rewrite Ho, Him.
  destruct (Z.leb_spec 0 (sval op val place)) as [P|P].
  - rewrite Z.mod_small by lia. exists (q * 2 ^ lsb). split; [reflexivity|].
    rewrite Z.div_mul by lia. split; auto. intros ->. subst q. rewrite Z.div_1_r. lia.
  - rewrite Z.mod_small by lia. exists (- ((- q - 1) * 2 ^ lsb) - 1). split; [reflexivity|].
    split.
    + symmetry. apply Z.div_unique with (r := 2 ^ lsb - 1); lia.
    + intros ->. subst q. rewrite Z.div_1_r. lia.
Qed.

(** ** Branches *)

Lemma land3 x : Z.land x 3 = x mod 4.
Proof. change 3 with (Z.ones 2). rewrite Z.land_ones by lia. reflexivity. Qed.

Lemma branch_imm_common_spec pc addr : 0 <= pc < 2 ^ 64 -> 0 <= addr < 2 ^ 64 ->
  let d := sx 64 (addr - pc) in
  branch_imm_common pc addr SZ_128M =
  if (pc mod 4 =? 0) && (addr mod 4 =? 0) && (- 2 ^ 27 <=? d) && (d <? 2 ^ 27) then d else 2 ^ 27.
Proof.
  intros Hp Ha d. unfold branch_imm_common. cbv zeta. rewrite !land3.
  assert (E : s64 (s64 addr - s64 pc) = d).
  { subst d. rewrite sx_sgn by lia. unfold s64.
    destruct (sgn_congr 64 addr ltac:(lia)) as [k1 ->].
    destruct (sgn_congr 64 pc ltac:(lia)) as [k2 ->].
    apply wrap_eq_sgn_eq. apply wrap_congr with (k := k1 - k2); lia. }
  rewrite E. change SZ_128M with (2 ^ 27).
  destruct (pc mod 4 =? 0), (addr mod 4 =? 0); cbn [negb orb andb]; auto.
  destruct (Z.ltb_spec d (- 2 ^ 27)), (Z.leb_spec (2 ^ 27) d), (Z.leb_spec (- 2 ^ 27) d), (Z.ltb_spec d (2 ^ 27));
    cbn [orb andb]; auto; lia.
Qed.

Definition branch_word (link : bool) : Z := if link then 0x94000000 else 0x14000000.
Definition btype (link : bool) := if link then BRANCH_LINK else BRANCH_NOLINK.

Lemma branch_word_encode link d : - 2 ^ 27 <= d < 2 ^ 27 -> d mod 4 = 0 ->
  let w := encode_immediate IMM_26 (branch_word link) (u64 (Z.shiftr d 2)) in
  bits w 26 6 = (if link then 0x25 else 5) /\ 4 * sx 26 (bits w 0 26) = d /\ 0 <= w < 2 ^ 32.
Proof.
  intros Hd H4 w.
  assert (Hb : 0 <= branch_word link < 2 ^ 32 /\ branch_word link <> brk_fault).
  { destruct link; (split; [cbn; lia|discriminate]). }
  destruct Hb as [Hb1 Hb2].
  assert (Him : bits w 0 26 = (d / 4) mod 2 ^ 26).
  { rewrite <- (imm_of_simple IMM_26 0 26) by reflexivity. subst w.
    rewrite encode_reads_back by (auto; discriminate). change (imm_width IMM_26) with 26.
    rewrite Z.shiftr_div_pow2 by lia. unfold u64, wrap. change (2 ^ 2) with 4.
    apply mod_pow_mod. lia. }
  split; [|split].
  - transitivity (bits (branch_word link) 26 6); [|destruct link; reflexivity].
    apply Z.bits_inj'. intros i Hi. rewrite !bits_testbit by lia.
    destruct (Z.ltb_spec i 6); auto. apply encode_same_outside; auto; [discriminate|lia|].
    intros (lo & n & [E|[]] & Hx). injection E as <- <-. lia.
  - rewrite Him, signed_readback; [lia|lia|]. unfold in_signed. lia.
  - apply encode_range.
Qed.

Lemma bits_split w : 0 <= w < 2 ^ 32 -> bits w 24 8 = 4 * bits w 26 6 + bits w 24 2.
Proof. intros H. unfold bits. change (2^24) with 16777216. change (2^8) with 256.
  change (2^26) with 67108864. change (2^6) with 64. change (2^2) with 4. lia. Qed.

Lemma a64_branch_exec m pc d link regs :
  - 2 ^ 27 <= d < 2 ^ 27 -> d mod 4 = 0 ->
  rd 4 m pc = encode_immediate IMM_26 (branch_word link) (u64 (Z.shiftr d 2)) ->
  a64_step (ACpu regs pc m) =
    Some (ACpu (if link then set_reg regs 30 (addr64 (pc + 4)) else regs) (addr64 (pc + d)) m).
Proof.
  intros Hd H4 Hr. destruct (branch_word_encode link d Hd H4) as (B1 & B2 & B3).
  set (w := encode_immediate IMM_26 (branch_word link) (u64 (Z.shiftr d 2))) in *.
  unfold a64_step. cbn [a_mem a_pc a_reg]. rewrite Hr.
  pose proof (bits_split w B3) as S. pose proof (bits_range w 24 2 ltac:(lia)) as R.
  assert (E1 : (bits w 24 8 =? 0x58) = false).
  { apply Z.eqb_neq. rewrite S, B1. change (2 ^ 2) with 4 in R. destruct link; lia. }
  assert (E2 : (bits w 10 22 =? 0x3587c0) = false).
  { apply Z.eqb_neq. intros C. unfold bits in C, B1. revert C B1.
    change (2^10) with 1024. change (2^22) with 4194304. change (2^26) with 67108864.
    change (2^6) with 64. destruct link; lia. }
  rewrite E1, E2, B1. cbn [andb]. cbv match. rewrite B2.
  destruct link; reflexivity.
Qed.
