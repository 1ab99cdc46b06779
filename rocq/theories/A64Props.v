(** Properties C22-C27 and C69: aarch64 immediates, relocation, branches. *)
From Coq Require Import ZArith List Bool Lia.
From Verif Require Import Word ElfDefs X86RelocModel X86RelocSpec X86RelocExamples
  InsnSpec InsnProofs A64Model A64Spec A64Proofs A64RelocSpec A64RelocProofs A64RelocMore
  A64RelocExamples.
Import ListNotations.
Open Scope Z_scope.

(** C22: writing an immediate and reading it back. *)
Theorem C22_a64_imm_round_trip : forall t insn imm,
  0 <= insn < 2 ^ 32 -> insn <> brk_fault -> t <> IMM_MAX ->
  decode_immediate t (encode_immediate t insn imm) = imm mod 2 ^ imm_width t /\
  imm_of t (encode_immediate t insn imm) = imm mod 2 ^ imm_width t /\
  same_outside t (encode_immediate t insn imm) insn /\
  0 <= encode_immediate t insn imm < 2 ^ 32.
Proof. exact encode_round_trip. Qed.
Print Assumptions C22_a64_imm_round_trip.

Example C22_example :
  encode_immediate IMM_ADR 0x10000000 0x12345 = 0x30091a20 /\
  decode_immediate IMM_ADR 0x30091a20 = 0x12345 /\ 0x10000000 <> brk_fault.
Proof. vm_compute. repeat split; discriminate. Qed.

(** C22: the reader reads the field of any instruction. *)
Theorem C22_a64_decode : forall t insn, 0 <= insn < 2 ^ 32 -> decode_immediate t insn = imm_of t insn.
Proof. exact decode_is_imm_of. Qed.
Print Assumptions C22_a64_decode.

Example C22_decode_example : decode_immediate IMM_26 0x97ffffff = 2 ^ 26 - 1.
Proof. reflexivity. Qed.

(** C22: the fault instruction and unsupported kinds give the fault instruction. *)
Theorem C22_a64_fault : forall t insn imm, insn = brk_fault \/ t = IMM_MAX ->
  encode_immediate t insn imm = brk_fault.
Proof. exact encode_fault. Qed.
Print Assumptions C22_a64_fault.

Example C22_fault_example : encode_immediate IMM_26 brk_fault 5 = brk_fault.
Proof. reflexivity. Qed.

(** C23. *)
Theorem C23_a64_imm_overflow : forall op place insn val lsb len t ret insn',
  0 <= insn < 2 ^ 32 -> insn <> brk_fault -> t <> IMM_MAX ->
  0 <= place < 2 ^ 64 -> 0 <= val < 2 ^ 64 ->
  0 <= lsb -> 0 < len -> lsb + len < 64 -> len <= imm_width t ->
  imm_insn op place insn val lsb len t = (ret, insn') ->
  imm_of t insn' = (sval op val place / 2 ^ lsb) mod 2 ^ len /\
  same_outside t insn' insn /\
  (ret = 0 \/ ret = - ERANGE) /\
  (ret = 0 <-> in_signed len (sval op val place / 2 ^ lsb)) /\
  (ret = 0 -> sx len (imm_of t insn') * 2 ^ lsb = sval op val place - sval op val place mod 2 ^ lsb).
Proof. exact imm_insn_readback. Qed.
Print Assumptions C23_a64_imm_overflow.

Example C23_example :
  imm_insn OP_PREL 0x400000 0x94000000 0x3ff000 2 26 IMM_26 = (0, 0x97fffc00) /\
  fst (imm_insn OP_PREL 0x400000 0x94000000 0x8400000 2 26 IMM_26) = - ERANGE.
Proof. vm_compute. split; reflexivity. Qed.

(** C24, the unsigned and "no check" forms. *)
Theorem C24_a64_movw_unsigned : forall op place insn val lsb ret insn',
  0 <= insn < 2 ^ 32 -> is_move_wide insn -> 0 <= place < 2 ^ 64 -> 0 <= val < 2 ^ 64 -> 0 <= lsb ->
  movw_insn op place insn val lsb MOVKZ = (ret, insn') ->
  imm_of IMM_16 insn' = (sval op val place / 2 ^ lsb) mod 2 ^ 16 /\
  (forall i, 0 <= i -> ~ movw_may_change MOVKZ i -> Z.testbit insn' i = Z.testbit insn i) /\
  (ret = 0 \/ ret = - ERANGE) /\
  (ret = 0 <-> 0 <= sval op val place / 2 ^ lsb < 2 ^ 16).
Proof. exact movw_kz_spec. Qed.
Print Assumptions C24_a64_movw_unsigned.

Example C24_unsigned_example :
  is_move_wide 0xf2a00001 /\ movw_insn OP_ABS 0 0xf2a00001 0x12345678 16 MOVKZ = (0, 0xf2a24681).
Proof. vm_compute. split; reflexivity. Qed.

(** C24, the signed forms: MOVZ with the slice or MOVN with its complement. *)
Theorem C24_a64_movw_signed : forall op place insn val lsb ret insn',
  0 <= insn < 2 ^ 32 -> is_move_wide insn -> 0 <= place < 2 ^ 64 -> 0 <= val < 2 ^ 64 -> 0 <= lsb ->
  movw_insn op place insn val lsb MOVNZ = (ret, insn') ->
  let q := sval op val place / 2 ^ lsb in
  bits insn' 29 2 = (if 0 <=? sval op val place then 2 else 0) /\
  imm_of IMM_16 insn' = (if 0 <=? sval op val place then q else - q - 1) mod 2 ^ 16 /\
  (forall i, 0 <= i -> ~ movw_may_change MOVNZ i -> Z.testbit insn' i = Z.testbit insn i) /\
  (ret = 0 \/ ret = - ERANGE) /\
  (ret = 0 <-> - 2 ^ 16 <= q < 2 ^ 16).
Proof. exact movw_nz_spec. Qed.
Print Assumptions C24_a64_movw_signed.

(** C24: when accepted, the instruction builds the value down to bit [lsb]. *)
Theorem C24_a64_movw_signed_value : forall op place insn val lsb insn',
  0 <= insn < 2 ^ 32 -> is_move_wide insn -> 0 <= place < 2 ^ 64 -> 0 <= val < 2 ^ 64 -> 0 <= lsb ->
  movw_insn op place insn val lsb MOVNZ = (0, insn') ->
  exists v, move_wide_value insn' lsb = Some v /\
    v / 2 ^ lsb = sval op val place / 2 ^ lsb /\ (lsb = 0 -> v = sval op val place).
Proof. exact movw_nz_value. Qed.
Print Assumptions C24_a64_movw_signed_value.

Example C24_signed_example :
  is_move_wide 0xd2800001 /\
  movw_insn OP_ABS 0 0xd2800001 (2 ^ 64 - 5) 0 MOVNZ = (0, 0x92800081) /\
  move_wide_value 0x92800081 0 = Some (- 5).
Proof. vm_compute. repeat split; reflexivity. Qed.

(** C25. *)
Theorem C25_a64_data_overflow : forall op m place val len ret m',
  (op = OP_ABS \/ op = OP_PREL) -> (len = 16 \/ len = 32 \/ len = 64) ->
  0 <= place < 2 ^ 64 -> 0 <= val < 2 ^ 64 ->
  reloc_data op m place val len = (ret, m') ->
  (ret = 0 \/ ret = - ERANGE) /\
  (ret = - ERANGE <->
     match op with
     | OP_ABS => len <> 64 /\ ~ in_unsigned len (sval op val place)
     | _ => len <> 64 /\ ~ in_signed len (sval op val place)
     end) /\
  ld (Z.to_nat (len / 8)) m' place = reloc_value op val place mod 2 ^ len /\
  (forall x, x < place \/ place + len / 8 <= x -> m' x = m x).
Proof. exact reloc_data_spec. Qed.
Print Assumptions C25_a64_data_overflow.

Example C25_example :
  fst (reloc_data OP_PREL (fun _ => 0) 0x400000 0x3fff00 32) = 0 /\
  ld 4 (snd (reloc_data OP_PREL (fun _ => 0) 0x400000 0x3fff00 32)) 0x400000 = 2 ^ 32 - 256 /\
  fst (reloc_data OP_ABS (fun _ => 0) 0x400000 0x10000 16) = - ERANGE.
Proof. vm_compute. repeat split; reflexivity. Qed.

(** C26 is false: after one unchecked entry (here ABS64) no later overflow is
    noticed, because the flag is not set again. *)
Theorem C26_a64_overflow_rejected_refuted : exists j pi m r,
  a64_image_ok m pi /\ describes j pi /\ In r (pi_rels pi) /\
  overflows (ra_ty r) (sa m pi r) (field_host pi r) /\
  overflows (ra_ty r) (sa m pi r) (field_target pi r) /\
  fst (a64_apply_relocate_add true j m) = 0.
Proof.
  exists (ex_job a2_pi), a2_pi, a2_mem, (Rela 8 1 258 0).
  split; [exact a2_ok|]. split; [apply ex_describes|]. split; [right; left; reflexivity|].
  split; [|split]; vm_compute; try reflexivity; intros [_ H]; discriminate H.
Qed.
Print Assumptions C26_a64_overflow_rejected_refuted.

(** C26, second reason: the flag has no defined initial value; if it happens to
    be false, a first entry that overflows is accepted. *)
Theorem C26_a64_uninitialised_refuted : exists j pi m r,
  a64_image_ok m pi /\ describes j pi /\ nth_error (pi_rels pi) 0 = Some r /\
  overflows (ra_ty r) (sa m pi r) (field_host pi r) /\
  fst (a64_apply_relocate_add false j m) = 0.
Proof.
  exists (ex_job a3_pi), a3_pi, a3_mem, (Rela 8 1 258 0).
  split; [exact a3_ok|]. split; [apply ex_describes|]. split; [reflexivity|].
  split; vm_compute; try reflexivity; intros [_ H]; discriminate H.
Qed.
Print Assumptions C26_a64_uninitialised_refuted.

(** C26, what holds: with the flag initially set, an overflowing entry (or one
    of an unknown type) that is not preceded by an unchecked entry is rejected.
    Missing: entries behind an unchecked one; and overflow is judged at the
    address of the field in the tool, the address the code uses. *)
Theorem C26_a64_overflow_rejected_partial : forall j pi m oc0 ret m',
  a64_image_ok m pi -> describes j pi -> a64_apply_relocate_add oc0 j m = (ret, m') ->
  forall k r, nth_error (pi_rels pi) k = Some r ->
  (a64_known (ra_ty r) = false \/
   (oc0 = true /\
    (forall i q, (i <= k)%nat -> nth_error (pi_rels pi) i = Some q -> unchecked_type (ra_ty q) = false) /\
    overflows (ra_ty r) (sa m pi r) (field_host pi r))) ->
  ret = - ENOEXEC.
Proof. exact run_reject. Qed.
Print Assumptions C26_a64_overflow_rejected_partial.

Example C26_partial_example :
  a64_image_ok a3_mem a3_pi /\ describes (ex_job a3_pi) a3_pi /\
  nth_error (pi_rels a3_pi) 0 = Some (Rela 8 1 258 0) /\
  unchecked_type 258 = false /\
  overflows 258 (sa a3_mem a3_pi (Rela 8 1 258 0)) (field_host a3_pi (Rela 8 1 258 0)) /\
  fst (a64_apply_relocate_add true (ex_job a3_pi) a3_mem) = - ENOEXEC.
Proof.
  split; [exact a3_ok|]. split; [apply ex_describes|].
  repeat split; vm_compute; try reflexivity. intros [_ H]; discriminate H.
Qed.

(** C26: nothing is rejected without cause. *)
Theorem C26_a64_no_spurious_rejection : forall j pi m oc0 ret m',
  a64_image_ok m pi -> describes j pi -> a64_apply_relocate_add oc0 j m = (ret, m') ->
  ret <> 0 -> ret = - ENOEXEC /\
  exists r, In r (pi_rels pi) /\
    (a64_known (ra_ty r) = false \/ overflows (ra_ty r) (sa m pi r) (field_host pi r)).
Proof. exact run_no_spurious. Qed.
Print Assumptions C26_a64_no_spurious_rejection.

Example C26_spurious_example :
  a64_image_ok a5_mem a5_pi /\ describes (ex_job a5_pi) a5_pi /\
  fst (a64_apply_relocate_add true (ex_job a5_pi) a5_mem) <> 0.
Proof. split; [exact a5_ok|]. split; [apply ex_describes|]. vm_compute. discriminate. Qed.

(** C27 is false: above 4 GiB a branch in range becomes the fault instruction ... *)
Theorem C27_a64_branch_reaches_refuted : exists pc addr,
  0 <= pc < 2 ^ 64 /\ 0 <= addr < 2 ^ 64 /\ pc mod 4 = 0 /\ addr mod 4 = 0 /\
  - 2 ^ 27 <= sx 64 (addr - pc) < 2 ^ 27 /\
  gen_branch_imm pc addr BRANCH_NOLINK = brk_fault.
Proof. exists 0x100000000, 0x100000100. vm_compute. repeat split; discriminate. Qed.
Print Assumptions C27_a64_branch_reaches_refuted.

(** ... and a branch out of range becomes a branch to somewhere else. *)
Theorem C27_a64_wrong_branch_refuted : exists pc addr wrong, forall regs,
  0 <= pc < 2 ^ 64 /\ 0 <= addr < 2 ^ 64 /\ wrong <> addr /\
  ~ (- 2 ^ 27 <= sx 64 (addr - pc) < 2 ^ 27) /\
  let m := code_mem pc (le_bytes 4 (gen_branch_imm pc addr BRANCH_NOLINK)) in
  a64_step (ACpu regs pc m) = Some (ACpu regs wrong m).
Proof.
  exists 0x100001000, 0x2000, 0x100002000. intros regs.
  split; [vm_compute; split; [discriminate|reflexivity]|].
  split; [vm_compute; split; [discriminate|reflexivity]|].
  split; [discriminate|].
  split; [vm_compute; intros [H _]; apply H; reflexivity|].
  cbv zeta. set (m := code_mem _ _). unfold a64_step. cbn [a_mem a_pc a_reg].
  assert (E : rd 4 m 0x100001000 = 0x14000400) by (vm_compute; reflexivity).
  rewrite E. reflexivity.
Qed.
Print Assumptions C27_a64_wrong_branch_refuted.

(** C27, what holds: instruction addresses below 4 GiB. *)
Theorem C27_a64_branch_reaches_partial : forall pc addr link m regs,
  0 <= pc < 2 ^ 32 -> 0 <= addr < 2 ^ 64 ->
  let d := sx 64 (addr - pc) in
  let w := gen_branch_imm pc addr (if (link : bool) then BRANCH_LINK else BRANCH_NOLINK) in
  code_at m pc (le_bytes 4 w) ->
  (pc mod 4 = 0 /\ addr mod 4 = 0 /\ - 2 ^ 27 <= d < 2 ^ 27 ->
     a64_step (ACpu regs pc m) =
       Some (ACpu (if link then set_reg regs 30 (addr64 (pc + 4)) else regs) addr m)) /\
  (~ (pc mod 4 = 0 /\ addr mod 4 = 0 /\ - 2 ^ 27 <= d < 2 ^ 27) -> w = brk_fault).
Proof. exact gen_branch_reaches. Qed.
Print Assumptions C27_a64_branch_reaches_partial.

Example C27_example :
  let w := gen_branch_imm 0x400100 0x400000 BRANCH_LINK in
  w = 0x97ffffc0 /\ code_at (code_mem 0x400100 (le_bytes 4 w)) 0x400100 (le_bytes 4 w).
Proof. split; [reflexivity|apply code_mem_at; vm_compute; reflexivity]. Qed.

(** C69 is false for place-relative types: the displacement is computed from the
    address of the image in the tool. *)
Theorem C69_a64_reloc_value_refuted : exists j pi m r w v,
  a64_image_ok m pi /\ describes j pi /\ In r (pi_rels pi) /\
  fst (a64_apply_relocate_add true j m) = 0 /\
  aaelf_data (ra_ty r) (sym_value m pi r) (ra_add r) (field_target pi r) = Some (w, v) /\
  ld w (snd (a64_apply_relocate_add true j m)) (field_host pi r) <> v mod 2 ^ (8 * Z.of_nat w).
Proof.
  exists (ex_job a4_pi), a4_pi, a4_mem, (Rela 0 1 260 0), 8%nat, (0x401000 - (0x400000 + 72)).
  split; [exact a4_ok|]. split; [apply ex_describes|]. split; [left; reflexivity|].
  vm_compute. repeat split; discriminate.
Qed.
Print Assumptions C69_a64_reloc_value_refuted.

(** C69 is false for calls, too: a [bl] is accepted and goes elsewhere. *)
Theorem C69_a64_call_refuted : exists j pi m r t v,
  a64_image_ok m pi /\ describes j pi /\ In r (pi_rels pi) /\
  fst (a64_apply_relocate_add true j m) = 0 /\
  aaelf_insn (ra_ty r) (sym_value m pi r) (ra_add r) (field_target pi r) = Some (t, v) /\
  overflows (ra_ty r) (sa m pi r) (field_target pi r) /\
  insn_at m pi r <> brk_fault /\
  imm_of t (insn_at (snd (a64_apply_relocate_add true j m)) pi r) <> v mod 2 ^ imm_width t.
Proof.
  exists (ex_job a6_pi), a6_pi, a6_mem, (Rela 0 1 283 0), IMM_26, ((0x7f1234561000 - (0x400000 + 96)) / 4).
  split; [exact a6_ok|]. split; [apply ex_describes|]. split; [left; reflexivity|].
  split; [vm_compute; reflexivity|]. split; [vm_compute; reflexivity|].
  split; [vm_compute; intros [_ H]; discriminate H|]. split; vm_compute; discriminate.
Qed.
Print Assumptions C69_a64_call_refuted.

(** C69, what holds: types that do not depend on the place; and for every type
    the value for the place in the tool.  Missing: place-relative types. *)
Theorem C69_a64_data_value_partial : forall j pi m oc0 m' r w v,
  a64_image_ok m pi -> describes j pi -> a64_apply_relocate_add oc0 j m = (0, m') ->
  In r (pi_rels pi) -> place_relative (ra_ty r) = false ->
  aaelf_data (ra_ty r) (sym_value m pi r) (ra_add r) (field_target pi r) = Some (w, v) ->
  ld w m' (field_host pi r) = v mod 2 ^ (8 * Z.of_nat w).
Proof.
  intros j pi m oc0 m' r w v Hok Hd Hr Hin Hp Ha. rewrite (data_place _ _ _ _ (field_host pi r) Hp) in Ha.
  exact (run_data j pi m oc0 0 m' Hok Hd Hr eq_refl r w v Hin Ha).
Qed.
Print Assumptions C69_a64_data_value_partial.

Theorem C69_a64_insn_value_partial : forall j pi m oc0 m' r t v,
  a64_image_ok m pi -> describes j pi -> a64_apply_relocate_add oc0 j m = (0, m') ->
  In r (pi_rels pi) -> place_relative (ra_ty r) = false ->
  aaelf_insn (ra_ty r) (sym_value m pi r) (ra_add r) (field_target pi r) = Some (t, v) ->
  insn_at m pi r <> brk_fault ->
  imm_of t (insn_at m' pi r) = v mod 2 ^ imm_width t /\
  same_outside t (insn_at m' pi r) (insn_at m pi r).
Proof.
  intros j pi m oc0 m' r t v Hok Hd Hr Hin Hp Ha. rewrite (insn_place _ _ _ _ (field_host pi r) Hp) in Ha.
  exact (run_insn j pi m oc0 0 m' Hok Hd Hr eq_refl r t v Hin Ha).
Qed.
Print Assumptions C69_a64_insn_value_partial.

Example C69_example :
  a64_image_ok a1_mem a1_pi /\ describes (ex_job a1_pi) a1_pi /\
  fst (a64_apply_relocate_add true (ex_job a1_pi) a1_mem) = 0 /\
  insn_at (snd (a64_apply_relocate_add true (ex_job a1_pi) a1_mem)) a1_pi (Rela 12 2 277 4) = 0x91001000.
Proof. split; [exact a1_ok|]. split; [apply ex_describes|]. vm_compute. split; reflexivity. Qed.

(** C69: the place-relative types get the value for the place in the tool. *)
Theorem C69_a64_host_place_partial : forall j pi m oc0 m' r,
  a64_image_ok m pi -> describes j pi -> a64_apply_relocate_add oc0 j m = (0, m') ->
  In r (pi_rels pi) ->
  (forall w v, aaelf_data (ra_ty r) (sym_value m pi r) (ra_add r) (field_host pi r) = Some (w, v) ->
     ld w m' (field_host pi r) = v mod 2 ^ (8 * Z.of_nat w)) /\
  (forall t v, aaelf_insn (ra_ty r) (sym_value m pi r) (ra_add r) (field_host pi r) = Some (t, v) ->
     insn_at m pi r <> brk_fault ->
     imm_of t (insn_at m' pi r) = v mod 2 ^ imm_width t /\
     same_outside t (insn_at m' pi r) (insn_at m pi r)).
Proof.
  intros j pi m oc0 m' r Hok Hd Hr Hin. split; intros.
  - exact (run_data j pi m oc0 0 m' Hok Hd Hr eq_refl r w v Hin H).
  - exact (run_insn j pi m oc0 0 m' Hok Hd Hr eq_refl r t v Hin H H0).
Qed.
Print Assumptions C69_a64_host_place_partial.

Example C69_host_example :
  a64_image_ok a6_mem a6_pi /\ describes (ex_job a6_pi) a6_pi /\
  fst (a64_apply_relocate_add true (ex_job a6_pi) a6_mem) = 0 /\
  aaelf_insn 283 0x7f1234561000 0 (field_host a6_pi (Rela 0 1 283 0)) = Some (IMM_26, 1000).
Proof. split; [exact a6_ok|]. split; [apply ex_describes|]. vm_compute. split; reflexivity. Qed.

(** C69: bytes outside the relocated fields never change. *)
Theorem C69_a64_reloc_frame : forall j pi m oc0 ret m',
  a64_image_ok m pi -> describes j pi -> a64_apply_relocate_add oc0 j m = (ret, m') ->
  forall x, ~ a64_in_field pi x -> m' x = m x.
Proof. exact run_frame. Qed.
Print Assumptions C69_a64_reloc_frame.

Example C69_frame_example :
  a64_image_ok a2_mem a2_pi /\ describes (ex_job a2_pi) a2_pi /\ ~ a64_in_field a2_pi ex_hdr.
Proof.
  split; [exact a2_ok|]. split; [apply ex_describes|].
  intros (r & [<-|[<-|[]]] & [H _]); vm_compute in H; apply H; reflexivity.
Qed.
