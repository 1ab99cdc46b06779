(** Meaning of the aarch64 relocation handlers and corollaries of
    [a64_apply_spec]. *)
From Coq Require Import ZArith List Bool Lia.
From Coq Require Import ZifyBool ZifyNat.
From Verif Require Import Word WordLemmas ElfDefs X86RelocModel X86RelocSpec X86RelocProofs X86RelocExamples
  InsnSpec InsnProofs A64Model A64Spec A64Proofs A64RelocSpec A64RelocProofs.
Import ListNotations.
Open Scope Z_scope.

Ltac Zify.zify_post_hook ::= Z.div_mod_to_equations.

(** ** Overflow *)

Lemma movw_ret op place insn val lsb t :
  0 <= place < 2 ^ 64 -> 0 <= val < 2 ^ 64 -> 0 <= lsb ->
  fst (movw_insn op place insn val lsb t) = - ERANGE <->
  ~ ((match t with MOVNZ => - 2 ^ 16 | MOVKZ => 0 end) <= sval op val place / 2 ^ lsb < 2 ^ 16).
Proof.
  intros Hp Hv Hl. unfold movw_insn. cbv zeta. rewrite do_reloc_value by auto.
  pose proof (sval_range op val place) as R0.
  pose proof (shiftr_range _ lsb Hl R0) as R.
  rewrite (Z.shiftr_div_pow2 _ lsb) in * by lia.
  assert (Hq : 0 <= sval op val place <-> 0 <= sval op val place / 2 ^ lsb).
  { pose proof (pow2_pos lsb Hl). split; intros.
    - apply Z.div_pos; lia.
    - pose proof (Z.mul_div_le (sval op val place) (2 ^ lsb)). nia. }
  set (q := sval op val place / 2 ^ lsb) in *. set (s := sval op val place) in *.
  destruct t.
  - destruct (Z.leb_spec 0 s); cbn [fst].
    + unfold u64, wrap, ERANGE. destruct (Z.ltb_spec 65535 (q mod 2 ^ 64)); lia.
    + assert (Hn : u64 (Z.lnot (u64 q)) = - q - 1) by (unfold u64, wrap, Z.lnot; lia).
      rewrite Hn. unfold ERANGE. destruct (Z.ltb_spec 65535 (- q - 1)); lia.
  - cbn [fst]. unfold u64, wrap, ERANGE. destruct (Z.ltb_spec 65535 (q mod 2 ^ 64)); lia.
Qed.

(** The range check of a handler. *)
Definition hrange (h : handler) : reloc_op * Z * Z * Z :=
  match h with
  | HNone => (OP_NONE, 0, 0, 1)
  | HData OP_ABS len => (OP_ABS, 0, 0, 2 ^ len)
  | HData op len => (op, 0, - 2 ^ (len - 1), 2 ^ (len - 1))
  | HMovw op lsb MOVNZ => (op, lsb, - 2 ^ 16, 2 ^ 16)
  | HMovw op lsb MOVKZ => (op, lsb, 0, 2 ^ 16)
  | HImm op lsb len t => (op, lsb, - 2 ^ (len - 1), 2 ^ (len - 1))
  end.

Lemma handler_ovf h m loc val : hwf h -> (forall op, h <> HData op 64) -> byte_mem m ->
  0 <= loc < 2 ^ 64 -> 0 <= val < 2 ^ 64 ->
  let '(op, sh, lo, hi) := hrange h in
  fst (run_handler h m loc val) = - ERANGE <-> ~ (lo <= sval op val loc / 2 ^ sh < hi).
Proof.
  intros Hw H64 Hb Hl Hv. destruct h as [|op len|op lsb t|op lsb len t]; cbn [run_handler hrange].
  - cbn [fst]. change (sval OP_NONE val loc / 2 ^ 0) with 0. unfold ERANGE. lia.
  - destruct Hw as [Hlen Hop].
    destruct (reloc_data op m loc val len) as [ret m'] eqn:E. cbn [fst].
    destruct (reloc_data_spec op m loc val len ret m' Hop Hlen Hl Hv E) as (_ & R & _).
    assert (len <> 64) by (intros ->; apply (H64 op); reflexivity).
    destruct Hop as [-> | ->]; rewrite R; unfold in_unsigned, in_signed;
      change (2 ^ 0) with 1; rewrite Z.div_1_r; tauto.
  - unfold reloc_insn_movw.
    pose proof (movw_ret op loc (ld 4 m loc) val lsb t Hl Hv (proj1 Hw)) as R.
    destruct (movw_insn _ _ _ _ _ _) as [ret insn]. cbn [fst] in *. destruct t; exact R.
  - unfold reloc_insn_imm. destruct Hw as (W1 & W2 & W3 & _).
    destruct (imm_insn op loc (ld 4 m loc) val lsb len t) as [ret insn] eqn:E. cbn [fst].
    pose proof (ld_range 4 m loc Hb) as RL. change (8 * Z.of_nat 4) with 32 in RL.
    destruct (imm_insn_spec _ _ _ _ _ _ _ _ _ RL Hl Hv W1 W2 W3 E) as (_ & [R|R] & I);
      unfold in_signed in I; rewrite R in *; unfold ERANGE in *.
    + split; [lia|]. intros N. exfalso. apply N. apply I. reflexivity.
    + split; [|reflexivity]. intros _ N. apply I in N. lia.
Qed.

(** The table says what the standard says about ranges. *)
Definition op_eqb (a b : reloc_op) : bool :=
  match a, b with
  | OP_NONE, OP_NONE | OP_ABS, OP_ABS | OP_PREL, OP_PREL | OP_PAGE, OP_PAGE => true
  | _, _ => false
  end.

Definition range_row (ty : Z) : bool :=
  match a64_switch ty, checked_range ty with
  | Some (_, h), Some (op, sh, lo, hi) =>
      let '(op', sh', lo', hi') := hrange h in
      op_eqb op op' && (sh =? sh') && (lo =? lo') && (hi =? hi') &&
      match h with HData _ len => negb (len =? 64) | _ => true end
  | Some _, None => unchecked_type ty || (ty =? 0)
  | None, _ => false
  end.

Lemma range_rows : forallb range_row known_list = true.
Proof. vm_compute. reflexivity. Qed.

Lemma handler_overflows ty c h m loc val : a64_switch ty = Some (c, h) -> unchecked_type ty = false ->
  byte_mem m -> 0 <= loc < 2 ^ 64 -> 0 <= val < 2 ^ 64 ->
  fst (run_handler h m loc val) = - ERANGE <-> overflows ty val loc.
Proof.
  intros Hs Hu Hb Hl Hv. pose proof (switch_known _ _ Hs) as K.
  pose proof range_rows as R. rewrite forallb_forall in R. specialize (R ty K).
  unfold range_row in R. rewrite Hs in R. unfold overflows.
  pose proof (row_hwf _ _ _ Hs) as Hw.
  destruct (checked_range ty) as [[[[op sh] lo] hi]|] eqn:Ec.
  - destruct (hrange h) as [[[op' sh'] lo'] hi'] eqn:Eh.
    rewrite !andb_true_iff in R. destruct R as [[[[R1 R2] R3] R4] R5].
    assert (op = op') by (destruct op, op'; try discriminate R1; reflexivity).
    assert (sh = sh') by lia. assert (lo = lo') by lia. assert (hi = hi') by lia. subst.
    assert (H64 : forall o, h <> HData o 64).
    { intros o ->. discriminate R5. }
    pose proof (handler_ovf h m loc val Hw H64 Hb Hl Hv) as G. rewrite Eh in G. exact G.
  - rewrite Hu in R. cbn [orb] in R. apply Z.eqb_eq in R. subst ty. injection Hs as <- <-.
    cbn. split; [unfold ERANGE; lia|tauto].
Qed.

(** ** Values *)

Lemma sval_slice op SA P sh w : 0 <= sh -> 0 <= w -> sh + w <= 64 ->
  (sval op SA P / 2 ^ sh) mod 2 ^ w = (reloc_value op SA P / 2 ^ sh) mod 2 ^ w.
Proof.
  intros H1 H2 H3. unfold sval. rewrite sx_sgn by lia.
  destruct (sgn_congr 64 (reloc_value op SA P) ltac:(lia)) as [k ->].
  replace (k * 2 ^ 64) with (k * 2 ^ (64 - sh) * 2 ^ sh)
    by (rewrite <- Z.mul_assoc, <- Z.pow_add_r by lia; do 2 f_equal; lia).
  rewrite Z.div_add by (pose proof (pow2_pos sh); lia).
  replace (k * 2 ^ (64 - sh)) with (k * 2 ^ (64 - sh - w) * 2 ^ w)
    by (rewrite <- Z.mul_assoc, <- Z.pow_add_r by lia; do 2 f_equal; lia).
  apply Z_mod_plus_full.
Qed.

Lemma as_u64_congr X : exists k, as_u64 X = X + k * 2 ^ 64.
Proof. exists (- (X / 2 ^ 64)). unfold as_u64. lia. Qed.

Lemma slice_congr X Y k sh w : 0 <= sh -> 0 <= w -> sh + w <= 64 -> X = Y + k * 2 ^ 64 ->
  (X / 2 ^ sh) mod 2 ^ w = (Y / 2 ^ sh) mod 2 ^ w.
Proof.
  intros H1 H2 H3 ->.
  replace (k * 2 ^ 64) with (k * 2 ^ (64 - sh) * 2 ^ sh)
    by (rewrite <- Z.mul_assoc, <- Z.pow_add_r by lia; do 2 f_equal; lia).
  rewrite Z.div_add by (pose proof (pow2_pos sh); lia).
  replace (k * 2 ^ (64 - sh)) with (k * 2 ^ (64 - sh - w) * 2 ^ w)
    by (rewrite <- Z.mul_assoc, <- Z.pow_add_r by lia; do 2 f_equal; lia).
  apply Z_mod_plus_full.
Qed.

Lemma abs_slice X P sh w : 0 <= sh -> 0 <= w -> sh + w <= 64 ->
  (sval OP_ABS (as_u64 X) P / 2 ^ sh) mod 2 ^ w = (X / 2 ^ sh) mod 2 ^ w.
Proof.
  intros H1 H2 H3. rewrite sval_slice by auto. cbn [reloc_value].
  destruct (as_u64_congr X) as [k E]. apply slice_congr with (k := k); auto.
Qed.

Lemma prel_slice X P sh w : 0 <= sh -> 0 <= w -> sh + w <= 64 ->
  (sval OP_PREL (as_u64 X) P / 2 ^ sh) mod 2 ^ w = ((X - P) / 2 ^ sh) mod 2 ^ w.
Proof.
  intros H1 H2 H3. rewrite sval_slice by auto. cbn [reloc_value].
  destruct (as_u64_congr X) as [k E]. apply slice_congr with (k := k); auto. lia.
Qed.

Lemma page_slice X P w : 0 <= w -> 12 + w <= 64 ->
  (sval OP_PAGE (as_u64 X) P / 2 ^ 12) mod 2 ^ w = (X / 4096 - P / 4096) mod 2 ^ w.
Proof.
  intros H1 H2. rewrite sval_slice by lia. cbn [reloc_value].
  destruct (as_u64_congr X) as [k E].
  assert (E2 : as_u64 X / 4096 * 4096 - P / 4096 * 4096 = (X / 4096 - P / 4096) * 2 ^ 12 + k * 2 ^ 64).
  { rewrite E. replace (k * 2 ^ 64) with (k * 2 ^ 52 * 4096) at 1 by lia.
    rewrite Z.div_add by lia. change (2 ^ 12) with 4096. lia. }
  rewrite (slice_congr _ ((X / 4096 - P / 4096) * 2 ^ 12) k 12 w) by (auto; lia).
  rewrite Z.div_mul by lia. reflexivity.
Qed.

Lemma lo12_slice X sh : 0 <= sh <= 12 ->
  (X / 2 ^ sh) mod 2 ^ (12 - sh) = ((X mod 2 ^ 12) / 2 ^ sh) mod 2 ^ 12.
Proof.
  intros H. rewrite <- !Z.shiftr_div_pow2 by lia. apply Z.bits_inj'. intros i Hi.
  destruct (Z.lt_ge_cases i (12 - sh)).
  - rewrite !Z.mod_pow2_bits_low, !Z.shiftr_spec, Z.mod_pow2_bits_low by lia. reflexivity.
  - rewrite Z.mod_pow2_bits_high by lia.
    destruct (Z.lt_ge_cases i 12).
    + rewrite Z.mod_pow2_bits_low, Z.shiftr_spec, Z.mod_pow2_bits_high by lia. reflexivity.
    + rewrite Z.mod_pow2_bits_high by lia. reflexivity.
Qed.

(** Result of an immediate handler. *)
Lemma himm_result op lsb len t m loc val : byte_mem m -> hwf (HImm op lsb len t) ->
  0 <= loc < 2 ^ 64 -> 0 <= val < 2 ^ 64 -> ld 4 m loc <> brk_fault ->
  let i' := ld 4 (snd (run_handler (HImm op lsb len t) m loc val)) loc in
  imm_of t i' = (sval op val loc / 2 ^ lsb) mod 2 ^ len /\ same_outside t i' (ld 4 m loc).
Proof.
  intros Hb Hw Hl Hv Hf. destruct Hw as (W1 & W2 & W3 & W4 & W5). cbn [run_handler].
  unfold reloc_insn_imm.
  destruct (imm_insn op loc (ld 4 m loc) val lsb len t) as [ret insn] eqn:E. cbn [snd].
  pose proof (ld_range 4 m loc Hb) as RL. change (8 * Z.of_nat 4) with 32 in RL.
  destruct (imm_insn_readback _ _ _ _ _ _ _ _ _ RL Hf W5 Hl Hv W1 W2 W3 W4 E) as (A & B & _).
  destruct (imm_insn_spec _ _ _ _ _ _ _ _ _ RL Hl Hv W1 W2 W3 E) as (I & _).
  rewrite ld_st. change (8 * Z.of_nat 4) with 32.
  rewrite (Z.mod_small insn) by (rewrite I; apply encode_range). auto.
Qed.

Lemma hmovk_result op lsb m loc val : byte_mem m -> 0 <= lsb <= 48 ->
  0 <= loc < 2 ^ 64 -> 0 <= val < 2 ^ 64 -> ld 4 m loc <> brk_fault ->
  let i' := ld 4 (snd (run_handler (HMovw op lsb MOVKZ) m loc val)) loc in
  imm_of IMM_16 i' = (sval op val loc / 2 ^ lsb) mod 2 ^ 16 /\ same_outside IMM_16 i' (ld 4 m loc).
Proof.
  intros Hb Hw Hl Hv Hf. cbn [run_handler]. unfold reloc_insn_movw, movw_insn. cbv zeta. cbn [snd].
  rewrite do_reloc_value by auto.
  pose proof (ld_range 4 m loc Hb) as RL. change (8 * Z.of_nat 4) with 32 in RL.
  rewrite ld_st. change (8 * Z.of_nat 4) with 32.
  rewrite Z.mod_small by apply encode_range.
  rewrite encode_reads_back by (auto; discriminate). change (imm_width IMM_16) with 16.
  split; [|apply encode_same_outside; auto; discriminate].
  rewrite Z.shiftr_div_pow2 by lia. unfold u64, wrap. apply mod_pow_mod. lia.
Qed.

(** ** Corollaries for the whole run *)

Section Run.
Variables (j : x86_job) (pi : placed_image) (m : mem) (oc0 : bool) (ret : Z) (m' : mem).
Hypothesis Hok : a64_image_ok m pi.
Hypothesis Hd : describes j pi.
Hypothesis Hrun : a64_apply_relocate_add oc0 j m = (ret, m').

Lemma field_bounds r : In r (pi_rels pi) -> 0 <= field_host pi r < 2 ^ 64.
Proof.
  intros Hin. apply In_nth_error in Hin. destruct Hin as [i Hi].
  destruct (ao_rel _ _ Hok i r Hi) as ((Ho1 & Ho2 & Ho3 & Ho4 & Ho5 & Ho6) & Hw & Hl & Hs).
  pose proof (ao_hdr _ _ Hok). pose proof (ao_offs _ _ Hok). unfold field_host, field_off in *. lia.
Qed.

Lemma sa_range r : 0 <= sa m pi r < 2 ^ 64.
Proof. unfold sa, as_u64. apply Z.mod_pos_bound. lia. Qed.

Lemma bad_overflow k r : nth_error (pi_rels pi) k = Some r ->
  bad pi m oc0 k r <->
  a64_known (ra_ty r) = false \/
  (active pi oc0 k = true /\ overflows (ra_ty r) (sa m pi r) (field_host pi r)).
Proof.
  intros Hk. assert (Hin : In r (pi_rels pi)) by (eapply nth_error_In; eauto).
  pose proof (field_bounds r Hin) as B. pose proof (sa_range r) as S.
  assert (Hact : active pi oc0 k = true -> unchecked_type (ra_ty r) = false).
  { unfold active. intros Ha. apply andb_true_iff in Ha. destruct Ha as [_ Ha].
    rewrite forallb_forall in Ha. apply negb_true_iff. apply Ha.
    clear -Hk. revert k Hk. induction (pi_rels pi) as [|a l IH]; intros [|k] H; try discriminate; cbn in *.
    - injection H as <-. auto.
    - right. apply IH. exact H. }
  unfold bad. split.
  - intros [H|(c & h & Hs & Ha & Ho)].
    + left. destruct (a64_known (ra_ty r)) eqn:E; auto. destruct (known_switch _ E) as (c & h & E2). congruence.
    + right. split; auto. unfold hres in Ho. eapply handler_overflows; eauto. exact (ao_bytes _ _ Hok).
  - intros [H|[Ha Ho]].
    + left. destruct (a64_switch (ra_ty r)) as [[c h]|] eqn:E; auto. pose proof (row_known _ _ _ E). congruence.
    + destruct (a64_switch (ra_ty r)) as [[c h]|] eqn:E; [|auto]. right. exists c, h. repeat split; auto.
      unfold hres. eapply handler_overflows; eauto. exact (ao_bytes _ _ Hok).
Qed.

Lemma run_reject : forall k r, nth_error (pi_rels pi) k = Some r ->
  (a64_known (ra_ty r) = false \/
   (oc0 = true /\ (forall i q, (i <= k)%nat -> nth_error (pi_rels pi) i = Some q -> unchecked_type (ra_ty q) = false) /\
    overflows (ra_ty r) (sa m pi r) (field_host pi r))) ->
  ret = - ENOEXEC.
Proof.
  intros k r Hk H. destruct (a64_apply_spec j pi m oc0 Hd Hok ret m' Hrun) as (_ & A & B).
  destruct (Z.eq_dec ret 0) as [Z0|N]; [|apply (B N)].
  exfalso. destruct (A Z0) as [_ A2]. apply (A2 k r Hk). apply bad_overflow; auto.
  destruct H as [H|(H1 & H2 & H3)]; auto. right. split; auto. unfold active. rewrite H1. cbn [andb].
  apply forallb_forall. intros q Hq. apply negb_true_iff.
  apply In_nth_error in Hq. destruct Hq as [i Hi].
  assert (Hlt : (i < S k)%nat).
  { assert (i < length (firstn (S k) (pi_rels pi)))%nat by (apply nth_error_Some; congruence).
    rewrite firstn_length in H. lia. }
  apply (H2 i q); [lia|].
  rewrite <- Hi. clear -Hlt. revert i Hlt. generalize (S k) as n. induction (pi_rels pi) as [|a l IH]; intros n i H.
  - destruct n, i; reflexivity.
  - destruct n as [|n]; [lia|]. destruct i as [|i]; [reflexivity|]. cbn. apply IH. lia.
Qed.

Lemma run_no_spurious : ret <> 0 -> ret = - ENOEXEC /\
  exists r, In r (pi_rels pi) /\
    (a64_known (ra_ty r) = false \/ overflows (ra_ty r) (sa m pi r) (field_host pi r)).
Proof.
  intros N. destruct (a64_apply_spec j pi m oc0 Hd Hok ret m' Hrun) as (_ & _ & B).
  destruct (B N) as (E & k & r & Hk & Hb). split; auto. exists r.
  split; [eapply nth_error_In; eauto|]. apply bad_overflow in Hb; auto. tauto.
Qed.

Lemma run_frame x : ~ a64_in_field pi x -> m' x = m x.
Proof. apply (a64_apply_spec j pi m oc0 Hd Hok ret m' Hrun). Qed.

Hypothesis Hret : ret = 0.

Lemma field_ld r c h : In r (pi_rels pi) -> a64_switch (ra_ty r) = Some (c, h) ->
  forall w, Z.of_nat w = a64_width (ra_ty r) ->
  ld w m' (field_host pi r) = ld w (snd (run_handler h m (field_host pi r) (sa m pi r))) (field_host pi r).
Proof.
  intros Hin Hs w Hw. apply ld_ext. intros x Hx.
  destruct (a64_apply_spec j pi m oc0 Hd Hok ret m' Hrun) as (_ & A & _).
  destruct (A Hret) as [A1 _]. apply (A1 r c h Hin Hs). unfold infld. lia.
Qed.

Lemma run_data r w v : In r (pi_rels pi) ->
  aaelf_data (ra_ty r) (sym_value m pi r) (ra_add r) (field_host pi r) = Some (w, v) ->
  ld w m' (field_host pi r) = v mod 2 ^ (8 * Z.of_nat w).
Proof.
  intros Hin Ha.
  assert (G : forall op len v', a64_switch (ra_ty r) <> None ->
    (exists c, a64_switch (ra_ty r) = Some (c, HData op len)) ->
    Z.of_nat w = a64_width (ra_ty r) -> len = 8 * Z.of_nat w ->
    (reloc_value op (sa m pi r) (field_host pi r)) mod 2 ^ len = v' mod 2 ^ len ->
    ld w m' (field_host pi r) = v' mod 2 ^ (8 * Z.of_nat w)).
  { intros op len v' _ (c & Hs) Hw Hlen Hv. rewrite (field_ld r c _ Hin Hs w Hw). cbn [run_handler].
    destruct (row_hwf _ _ _ Hs) as [H1 H2].
    destruct (reloc_data op m (field_host pi r) (sa m pi r) len) as [e m2] eqn:E. cbn [snd].
    destruct (reloc_data_spec _ _ _ _ _ _ _ H2 H1 (field_bounds r Hin) (sa_range r) E) as (_ & _ & R & _).
    replace (Z.to_nat (len / 8)) with w in R by lia. rewrite R, Hv, Hlen. reflexivity. }
  assert (K : In (ra_ty r) [257; 258; 259; 260; 261; 262]).
  { clear -Ha. unfold aaelf_data in Ha. destruct (ra_ty r) as [|p|p]; try discriminate.
    repeat (destruct p as [p|p|]; try discriminate Ha); simpl; tauto. }
  unfold sa in G. destruct (as_u64_congr (sym_value m pi r + ra_add r)) as [k Ek]. rewrite Ek in G.
  cbn [In] in K.
  destruct K as [K|[K|[K|[K|[K|[K|[]]]]]]]; rewrite <- K in *; injection Ha as <- <-.
  - apply (G OP_ABS 64); [discriminate|eexists; reflexivity|reflexivity|reflexivity|].
    cbn [reloc_value]. apply Z_mod_plus_full.
  - apply (G OP_ABS 32); [discriminate|eexists; reflexivity|reflexivity|reflexivity|].
    cbn [reloc_value]. replace (k * 2 ^ 64) with (k * 2 ^ 32 * 2 ^ 32) by lia. apply Z_mod_plus_full.
  - apply (G OP_ABS 16); [discriminate|eexists; reflexivity|reflexivity|reflexivity|].
    cbn [reloc_value]. replace (k * 2 ^ 64) with (k * 2 ^ 48 * 2 ^ 16) by lia. apply Z_mod_plus_full.
  - apply (G OP_PREL 64); [discriminate|eexists; reflexivity|reflexivity|reflexivity|].
    cbn [reloc_value]. symmetry. rewrite <- (Z_mod_plus_full _ k). f_equal. lia.
  - apply (G OP_PREL 32); [discriminate|eexists; reflexivity|reflexivity|reflexivity|].
    cbn [reloc_value]. symmetry. rewrite <- (Z_mod_plus_full _ (k * 2 ^ 32)). f_equal. lia.
  - apply (G OP_PREL 16); [discriminate|eexists; reflexivity|reflexivity|reflexivity|].
    cbn [reloc_value]. symmetry. rewrite <- (Z_mod_plus_full _ (k * 2 ^ 48)). f_equal. lia.
Qed.

Lemma run_insn r t v : In r (pi_rels pi) ->
  aaelf_insn (ra_ty r) (sym_value m pi r) (ra_add r) (field_host pi r) = Some (t, v) ->
  insn_at m pi r <> brk_fault ->
  imm_of t (insn_at m' pi r) = v mod 2 ^ imm_width t /\
  same_outside t (insn_at m' pi r) (insn_at m pi r).
Proof.
  intros Hin Ha Hf.
  assert (GI : forall op lsb len v', (exists c, a64_switch (ra_ty r) = Some (c, HImm op lsb len t)) ->
    Z.of_nat 4 = a64_width (ra_ty r) ->
    (sval op (sa m pi r) (field_host pi r) / 2 ^ lsb) mod 2 ^ len = v' mod 2 ^ imm_width t ->
    imm_of t (insn_at m' pi r) = v' mod 2 ^ imm_width t /\
    same_outside t (insn_at m' pi r) (insn_at m pi r)).
  { intros op lsb len v' (c & Hs) Hw Hv. unfold insn_at. rewrite (field_ld r c _ Hin Hs 4 Hw).
    rewrite <- Hv. apply himm_result; auto.
    - exact (ao_bytes _ _ Hok).
    - apply (row_hwf _ _ _ Hs).
    - apply field_bounds; auto.
    - apply sa_range. }
  assert (GM : forall op lsb v', t = IMM_16 ->
    (exists c, a64_switch (ra_ty r) = Some (c, HMovw op lsb MOVKZ)) ->
    Z.of_nat 4 = a64_width (ra_ty r) ->
    (sval op (sa m pi r) (field_host pi r) / 2 ^ lsb) mod 2 ^ 16 = v' mod 2 ^ imm_width t ->
    imm_of t (insn_at m' pi r) = v' mod 2 ^ imm_width t /\
    same_outside t (insn_at m' pi r) (insn_at m pi r)).
  { intros op lsb v' -> (c & Hs) Hw Hv. unfold insn_at. rewrite (field_ld r c _ Hin Hs 4 Hw).
    rewrite <- Hv. apply hmovk_result; auto.
    - exact (ao_bytes _ _ Hok).
    - apply (row_hwf _ _ _ Hs).
    - apply field_bounds; auto.
    - apply sa_range. }
  assert (K : In (ra_ty r) [263; 264; 265; 266; 267; 268; 269; 288; 290; 292; 273; 280; 274; 275; 276;
                            277; 278; 284; 285; 286; 299; 279; 282; 283]).
  { clear -Ha. unfold aaelf_insn in Ha. destruct (ra_ty r) as [|p|p]; try discriminate.
    repeat (destruct p as [p|p|]; try discriminate Ha); simpl; tauto. }
  unfold sa in GI, GM. set (X := sym_value m pi r + ra_add r) in *.
  cbn [In] in K.
  repeat (destruct K as [K|K]; [rewrite <- K in *; injection Ha as <- <-; subst X|]); try contradiction.
  all: try (match goal with
    | |- context [imm_width IMM_16] =>
        let go op lsb :=
          (apply (GM op lsb); [reflexivity | eexists; reflexivity | reflexivity |];
           first [rewrite abs_slice by lia | rewrite prel_slice by lia];
           change (imm_width IMM_16) with 16; rewrite ?Z.div_1_r; reflexivity) in
        first [ go OP_ABS 0 | go OP_ABS 16 | go OP_ABS 32 | go OP_ABS 48
              | go OP_PREL 0 | go OP_PREL 16 | go OP_PREL 32 ]
    | |- context [imm_width IMM_19] =>
        apply (GI OP_PREL 2 19); [eexists; reflexivity | reflexivity |];
        rewrite prel_slice by lia; reflexivity
    | |- context [imm_width IMM_14] =>
        apply (GI OP_PREL 2 14); [eexists; reflexivity | reflexivity |];
        rewrite prel_slice by lia; reflexivity
    | |- context [imm_width IMM_26] =>
        apply (GI OP_PREL 2 26); [eexists; reflexivity | reflexivity |];
        rewrite prel_slice by lia; reflexivity
    end).
  - (* 274 *) apply (GI OP_PREL 0 21); [eexists; reflexivity | reflexivity |].
    rewrite prel_slice by lia. change (2 ^ 0) with 1. rewrite Z.div_1_r. reflexivity.
  - (* 275 *) apply (GI OP_PAGE 12 21); [eexists; reflexivity | reflexivity |].
    rewrite page_slice by lia. reflexivity.
  - (* 276 *) apply (GI OP_PAGE 12 21); [eexists; reflexivity | reflexivity |].
    rewrite page_slice by lia. reflexivity.
  - (* 277 *) apply (GI OP_ABS 0 12); [eexists; reflexivity | reflexivity |].
    rewrite abs_slice by lia. change (2 ^ 0) with 1. rewrite Z.div_1_r.
    change (imm_width IMM_12) with 12. rewrite Z.mod_mod by lia. reflexivity.
  - (* 278 *) apply (GI OP_ABS 0 12); [eexists; reflexivity | reflexivity |].
    rewrite abs_slice by lia. change (2 ^ 0) with 1. rewrite Z.div_1_r.
    change (imm_width IMM_12) with 12. rewrite Z.mod_mod by lia. reflexivity.
  - (* 284 *) apply (GI OP_ABS 1 11); [eexists; reflexivity | reflexivity |].
    rewrite abs_slice by lia. apply (lo12_slice _ 1). lia.
  - apply (GI OP_ABS 2 10); [eexists; reflexivity | reflexivity |].
    rewrite abs_slice by lia. apply (lo12_slice _ 2). lia.
  - apply (GI OP_ABS 3 9); [eexists; reflexivity | reflexivity |].
    rewrite abs_slice by lia. apply (lo12_slice _ 3). lia.
  - apply (GI OP_ABS 4 8); [eexists; reflexivity | reflexivity |].
    rewrite abs_slice by lia. apply (lo12_slice _ 4). lia.
Qed.
End Run.

(** The value does not depend on the place for the other types. *)
Lemma data_place ty S A P Q : place_relative ty = false -> aaelf_data ty S A P = aaelf_data ty S A Q.
Proof.
  intros H. unfold place_relative in H. unfold aaelf_data. destruct ty as [|p|p]; auto.
  repeat (destruct p as [p|p|]; try discriminate H; auto).
Qed.

Lemma insn_place ty S A P Q : place_relative ty = false -> aaelf_insn ty S A P = aaelf_insn ty S A Q.
Proof.
  intros H. unfold place_relative in H. unfold aaelf_insn. destruct ty as [|p|p]; auto.
  repeat (destruct p as [p|p|]; try discriminate H; auto).
Qed.

(** ** Generated branches *)

Lemma gen_branch_word pc addr link : 0 <= pc < 2 ^ 32 -> 0 <= addr < 2 ^ 64 ->
  let d := sx 64 (addr - pc) in
  gen_branch_imm pc addr (btype link) =
  if (pc mod 4 =? 0) && (addr mod 4 =? 0) && (- 2 ^ 27 <=? d) && (d <? 2 ^ 27)
  then encode_immediate IMM_26 (branch_word link) (u64 (Z.shiftr d 2)) else brk_fault.
Proof.
  intros Hp Ha d. unfold gen_branch_imm. cbv zeta.
  unfold u32, u64. rewrite (wrap_id 32 pc), (wrap_id 64 addr) by lia.
  rewrite branch_imm_common_spec by lia. fold d. change SZ_128M with (2 ^ 27).
  destruct ((pc mod 4 =? 0) && (addr mod 4 =? 0) && (- 2 ^ 27 <=? d) && (d <? 2 ^ 27)) eqn:E.
  - destruct (Z.leb_spec (2 ^ 27) d); [lia|]. destruct link; reflexivity.
  - reflexivity.
Qed.

Lemma rd_le4 m a w : 0 <= w < 2 ^ 32 -> code_at m a (le_bytes 4 w) -> rd 4 m a = w.
Proof.
  intros Hw H. apply code_at_nil_r in H. apply rd_le_bytes in H. rewrite H.
  apply Z.mod_small. exact Hw.
Qed.

Lemma gen_branch_reaches pc addr link m regs : 0 <= pc < 2 ^ 32 -> 0 <= addr < 2 ^ 64 ->
  let d := sx 64 (addr - pc) in
  let w := gen_branch_imm pc addr (btype link) in
  code_at m pc (le_bytes 4 w) ->
  (pc mod 4 = 0 /\ addr mod 4 = 0 /\ - 2 ^ 27 <= d < 2 ^ 27 ->
     a64_step (ACpu regs pc m) =
       Some (ACpu (if link then set_reg regs 30 (addr64 (pc + 4)) else regs) addr m)) /\
  (~ (pc mod 4 = 0 /\ addr mod 4 = 0 /\ - 2 ^ 27 <= d < 2 ^ 27) -> w = brk_fault).
Proof.
  intros Hp Ha d w H. pose proof (gen_branch_word pc addr link Hp Ha) as G. cbv zeta in G. fold d w in G.
  split.
  - intros (H1 & H2 & H3).
    assert (E : (pc mod 4 =? 0) && (addr mod 4 =? 0) && (- 2 ^ 27 <=? d) && (d <? 2 ^ 27) = true) by lia.
    rewrite E in G.
    assert (Hd4 : d mod 4 = 0).
    { subst d. rewrite sx_sgn by lia. destruct (sgn_congr 64 (addr - pc) ltac:(lia)) as [k ->]. lia. }
    rewrite (a64_branch_exec m pc d link regs H3 Hd4).
    + do 2 f_equal. subst d. rewrite sx_sgn by lia.
      destruct (sgn_congr 64 (addr - pc) ltac:(lia)) as [k ->].
      transitivity (addr64 addr); [apply addr64_congr with (k := k); lia|apply Z.mod_small; lia].
    + rewrite <- G. apply rd_le4; auto. rewrite G. apply encode_range.
  - intros N. rewrite G.
    destruct ((pc mod 4 =? 0) && (addr mod 4 =? 0) && (- 2 ^ 27 <=? d) && (d <? 2 ^ 27)) eqn:E; auto.
    exfalso. apply N. lia.
Qed.
