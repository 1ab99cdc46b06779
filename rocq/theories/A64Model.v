(** aarch64 instruction patching and relocation: src/arch/aarch64/insn.c,
    src/arch/aarch64/instruments.h, src/arch/aarch64/patch.c. *)
From Coq Require Import ZArith List Bool.
From Verif Require Import Word ElfDefs X86RelocModel.
Import ListNotations.
Open Scope Z_scope.

(** AARCH64_BREAK_FAULT, src/arch/aarch64/debug-monitors.h 14-20 with
    FAULT_BRK_IMM of brk-imm.h. *)
Definition AARCH64_BREAK_FAULT := Z.lor 0xd4200000 (Z.shiftl 0x100 5).

(** src/arch/aarch64/instruments.h, enum aarch64_insn_imm_type. *)
Inductive imm_type :=
  IMM_ADR | IMM_26 | IMM_19 | IMM_16 | IMM_14 | IMM_12 | IMM_9 | IMM_7 | IMM_6
| IMM_S | IMM_R | IMM_N | IMM_MAX.

(** BIT, src/utils/bitops.h 5. *)
Definition BIT (n : Z) : Z := u64 (Z.shiftl 1 n).

(** [aarch64_get_imm_shift_mask], src/arch/aarch64/insn.c 70-126: (mask, shift),
    [None] for -EINVAL. *)
Definition get_imm_shift_mask (t : imm_type) : option (Z * Z) :=
  match t with
  | IMM_26 => Some (BIT 26 - 1, 0)
  | IMM_19 => Some (BIT 19 - 1, 5)
  | IMM_16 => Some (BIT 16 - 1, 5)
  | IMM_14 => Some (BIT 14 - 1, 5)
  | IMM_12 => Some (BIT 12 - 1, 10)
  | IMM_9 => Some (BIT 9 - 1, 12)
  | IMM_7 => Some (BIT 7 - 1, 15)
  | IMM_6 | IMM_S => Some (BIT 6 - 1, 10)
  | IMM_R => Some (BIT 6 - 1, 16)
  | IMM_N => Some (1, 22)
  | IMM_ADR | IMM_MAX => None
  end.

(** src/arch/aarch64/insn.c 128-133. *)
Definition ADR_IMM_HILOSPLIT := 2.
Definition ADR_IMM_SIZE := 0x00200000.
Definition ADR_IMM_LOMASK := Z.shiftl 1 ADR_IMM_HILOSPLIT - 1.
Definition ADR_IMM_HIMASK := Z.shiftr ADR_IMM_SIZE ADR_IMM_HILOSPLIT - 1.
Definition ADR_IMM_LOSHIFT := 29.
Definition ADR_IMM_HISHIFT := 5.

(** [aarch64_insn_decode_immediate], src/arch/aarch64/insn.c 135-158. *)
Definition decode_immediate (t : imm_type) (insn : Z) : Z :=
  match t with
  | IMM_ADR =>
      let immlo := Z.land (Z.shiftr insn ADR_IMM_LOSHIFT) ADR_IMM_LOMASK in
      let immhi := Z.land (Z.shiftr insn ADR_IMM_HISHIFT) ADR_IMM_HIMASK in
      let insn' := Z.lor (u32 (Z.shiftl immhi ADR_IMM_HILOSPLIT)) immlo in
      Z.land (Z.shiftr insn' 0) (ADR_IMM_SIZE - 1)
  | _ => match get_imm_shift_mask t with
         | None => 0
         | Some (mask, shift) => Z.land (Z.shiftr insn shift) mask
         end
  end.

(** "Update the immediate field", src/arch/aarch64/insn.c 187-189. *)
Definition put_field (insn mask shift imm : Z) : Z :=
  let insn1 := Z.land insn (u32 (Z.lnot (u32 (Z.shiftl mask shift)))) in
  u32 (Z.lor insn1 (u64 (Z.shiftl (Z.land imm mask) shift))).

(** [aarch64_insn_encode_immediate], src/arch/aarch64/insn.c 160-192. *)
Definition encode_immediate (t : imm_type) (insn imm : Z) : Z :=
  if insn =? AARCH64_BREAK_FAULT then AARCH64_BREAK_FAULT else
  match t with
  | IMM_ADR =>
      let immlo := u32 (Z.shiftl (Z.land imm ADR_IMM_LOMASK) ADR_IMM_LOSHIFT) in
      let imm1 := Z.shiftr imm ADR_IMM_HILOSPLIT in
      let immhi := u32 (Z.shiftl (Z.land imm1 ADR_IMM_HIMASK) ADR_IMM_HISHIFT) in
      let mask := Z.lor (Z.shiftl ADR_IMM_LOMASK ADR_IMM_LOSHIFT)
                        (Z.shiftl ADR_IMM_HIMASK ADR_IMM_HISHIFT) in
      put_field insn mask 0 (Z.lor immlo immhi)
  | _ => match get_imm_shift_mask t with
         | None => AARCH64_BREAK_FAULT
         | Some (mask, shift) => put_field insn mask shift imm
         end
  end.

(** SZ_128M, src/utils/macros.h 104. *)
Definition SZ_128M := 0x08000000.

(** [branch_imm_common], src/arch/aarch64/insn.c 50-68. *)
Definition branch_imm_common (pc addr range : Z) : Z :=
  if negb (Z.land pc 3 =? 0) || negb (Z.land addr 3 =? 0) then range
  else let offset := s64 (s64 addr - s64 pc) in
       if (offset <? - range) || (range <=? offset) then range else offset.

(** enum aarch64_insn_branch_type, src/arch/aarch64/instruments.h. *)
Inductive branch_type := BRANCH_NOLINK | BRANCH_LINK | BRANCH_OTHER.

(** [aarch64_insn_gen_branch_imm], src/arch/aarch64/insn.c 194-222.  The first
    parameter is a 32-bit [unsigned], the second an [unsigned long]. *)
Definition gen_branch_imm (pc_arg addr_arg : Z) (t : branch_type) : Z :=
  let pc := u32 pc_arg in
  let addr := u64 addr_arg in
  let offset := branch_imm_common pc addr SZ_128M in
  if SZ_128M <=? offset then AARCH64_BREAK_FAULT else
  match t with
  | BRANCH_LINK => encode_immediate IMM_26 0x94000000 (u64 (Z.shiftr offset 2))
  | BRANCH_NOLINK => encode_immediate IMM_26 0x14000000 (u64 (Z.shiftr offset 2))
  | BRANCH_OTHER => AARCH64_BREAK_FAULT
  end.

(** ** Relocation *)

(** enum aarch64_reloc_op, src/arch/aarch64/patch.c 14-19. *)
Inductive reloc_op := OP_NONE | OP_ABS | OP_PREL | OP_PAGE.

(** [do_reloc], src/arch/aarch64/patch.c 21-37.  [place] is the address at which
    the tool has the field, i.e. an address of the tool. *)
Definition do_reloc (op : reloc_op) (place val : Z) : Z :=
  match op with
  | OP_ABS => val
  | OP_PREL => u64 (val - place)
  | OP_PAGE => u64 (Z.land val (u64 (Z.lnot 0xfff)) - Z.land place (u64 (Z.lnot 0xfff)))
  | OP_NONE => 0
  end.

(** [reloc_data], src/arch/aarch64/patch.c 39-97: result and memory. *)
Definition reloc_data (op : reloc_op) (m : mem) (place val len : Z) : Z * mem :=
  let sval := s64 (do_reloc op place val) in
  if len =? 16 then
    let m' := st 2 m place sval in
    match op with
    | OP_ABS => (if (sval <? 0) || (65535 <? sval) then - ERANGE else 0, m')
    | OP_PREL => (if (sval <? -32768) || (32767 <? sval) then - ERANGE else 0, m')
    | _ => (0, m')
    end
  else if len =? 32 then
    let m' := st 4 m place sval in
    match op with
    | OP_ABS => (if (sval <? 0) || (4294967295 <? sval) then - ERANGE else 0, m')
    | OP_PREL => (if (sval <? -2147483648) || (2147483647 <? sval) then - ERANGE else 0, m')
    | _ => (0, m')
    end
  else if len =? 64 then (0, st 8 m place sval)
  else (0, m).

(** enum aarch64_insn_movw_imm_type, src/arch/aarch64/patch.c 100-103. *)
Inductive movw_type := MOVNZ | MOVKZ.

(** [reloc_insn_movw], src/arch/aarch64/patch.c 105-145, on the instruction
    word: result and new instruction. *)
Definition movw_insn (op : reloc_op) (place insn val lsb : Z) (t : movw_type) : Z * Z :=
  let sval := s64 (do_reloc op place val) in
  let imm := u64 (Z.shiftr sval lsb) in
  let '(insn1, imm1) :=
    match t with
    | MOVNZ =>
        let i1 := Z.land insn (u32 (Z.lnot (Z.shiftl 3 29))) in
        if 0 <=? sval then (Z.lor i1 (Z.shiftl 2 29), imm) else (i1, u64 (Z.lnot imm))
    | MOVKZ => (insn, imm)
    end in
  (if 65535 <? imm1 then - ERANGE else 0, encode_immediate IMM_16 insn1 imm1).

Definition reloc_insn_movw (op : reloc_op) (m : mem) (place val lsb : Z) (t : movw_type) : Z * mem :=
  let '(ret, insn) := movw_insn op place (ld 4 m place) val lsb t in (ret, st 4 m place insn).

(** [reloc_insn_imm], src/arch/aarch64/patch.c 147-181, on the instruction
    word. *)
Definition imm_insn (op : reloc_op) (place insn val lsb len : Z) (t : imm_type) : Z * Z :=
  let sval := Z.shiftr (s64 (do_reloc op place val)) lsb in
  let imm_mask := Z.shiftr (BIT (lsb + len) - 1) lsb in
  let imm := u64 (Z.land sval imm_mask) in
  let insn' := encode_immediate t insn imm in
  let sval' := Z.shiftr (s64 (Z.land sval (Z.lnot (Z.shiftr imm_mask 1)))) (len - 1) in
  (if 2 <=? u64 (sval' + 1) then - ERANGE else 0, insn').

Definition reloc_insn_imm (op : reloc_op) (m : mem) (place val lsb len : Z) (t : imm_type) : Z * mem :=
  let '(ret, insn) := imm_insn op place (ld 4 m place) val lsb len t in (ret, st 4 m place insn).

(** The handlers called from the switch of [arch_apply_relocate_add].
    [reloc_insn_adrp] (186-190) is [HImm OP_PAGE 12 21 IMM_ADR]. *)
Inductive handler :=
  | HNone
  | HData (op : reloc_op) (len : Z)
  | HMovw (op : reloc_op) (lsb : Z) (t : movw_type)
  | HImm (op : reloc_op) (lsb len : Z) (t : imm_type).

(** The switch, src/arch/aarch64/patch.c 233-404: for each relocation type,
    whether the case executes [overflow_check = false], and the handler.
    Numbers from <elf.h>.  [None]: default, unsupported. *)
Definition a64_switch (ty : Z) : option (bool * handler) :=
  match ty with
  | 0 => Some (false, HNone)                               (* NONE *)
  | 257 => Some (true, HData OP_ABS 64)                    (* ABS64 *)
  | 258 => Some (false, HData OP_ABS 32)                   (* ABS32 *)
  | 259 => Some (false, HData OP_ABS 16)                   (* ABS16 *)
  | 260 => Some (true, HData OP_PREL 64)                   (* PREL64 *)
  | 261 => Some (false, HData OP_PREL 32)                  (* PREL32 *)
  | 262 => Some (false, HData OP_PREL 16)                  (* PREL16 *)
  | 264 => Some (true, HMovw OP_ABS 0 MOVKZ)               (* MOVW_UABS_G0_NC *)
  | 263 => Some (false, HMovw OP_ABS 0 MOVKZ)              (* MOVW_UABS_G0 *)
  | 266 => Some (true, HMovw OP_ABS 16 MOVKZ)              (* MOVW_UABS_G1_NC *)
  | 265 => Some (false, HMovw OP_ABS 16 MOVKZ)             (* MOVW_UABS_G1 *)
  | 268 => Some (true, HMovw OP_ABS 32 MOVKZ)              (* MOVW_UABS_G2_NC *)
  | 267 => Some (false, HMovw OP_ABS 32 MOVKZ)             (* MOVW_UABS_G2 *)
  | 269 => Some (true, HMovw OP_ABS 48 MOVKZ)              (* MOVW_UABS_G3 *)
  | 270 => Some (false, HMovw OP_ABS 0 MOVNZ)              (* MOVW_SABS_G0 *)
  | 271 => Some (false, HMovw OP_ABS 16 MOVNZ)             (* MOVW_SABS_G1 *)
  | 272 => Some (false, HMovw OP_ABS 32 MOVNZ)             (* MOVW_SABS_G2 *)
  | 288 => Some (true, HMovw OP_PREL 0 MOVKZ)              (* MOVW_PREL_G0_NC *)
  | 287 => Some (false, HMovw OP_PREL 0 MOVNZ)             (* MOVW_PREL_G0 *)
  | 290 => Some (true, HMovw OP_PREL 16 MOVKZ)             (* MOVW_PREL_G1_NC *)
  | 289 => Some (false, HMovw OP_PREL 16 MOVNZ)            (* MOVW_PREL_G1 *)
  | 292 => Some (true, HMovw OP_PREL 32 MOVKZ)             (* MOVW_PREL_G2_NC *)
  | 291 => Some (false, HMovw OP_PREL 32 MOVNZ)            (* MOVW_PREL_G2 *)
  | 293 => Some (true, HMovw OP_PREL 48 MOVNZ)             (* MOVW_PREL_G3 *)
  | 273 => Some (false, HImm OP_PREL 2 19 IMM_19)          (* LD_PREL_LO19 *)
  | 274 => Some (false, HImm OP_PREL 0 21 IMM_ADR)         (* ADR_PREL_LO21 *)
  | 276 => Some (true, HImm OP_PAGE 12 21 IMM_ADR)         (* ADR_PREL_PG_HI21_NC *)
  | 275 => Some (false, HImm OP_PAGE 12 21 IMM_ADR)        (* ADR_PREL_PG_HI21 *)
  | 277 | 278 => Some (true, HImm OP_ABS 0 12 IMM_12)      (* ADD_ABS_LO12_NC, LDST8 *)
  | 284 => Some (true, HImm OP_ABS 1 11 IMM_12)            (* LDST16_ABS_LO12_NC *)
  | 285 => Some (true, HImm OP_ABS 2 10 IMM_12)            (* LDST32_ABS_LO12_NC *)
  | 286 => Some (true, HImm OP_ABS 3 9 IMM_12)             (* LDST64_ABS_LO12_NC *)
  | 299 => Some (true, HImm OP_ABS 4 8 IMM_12)             (* LDST128_ABS_LO12_NC *)
  | 279 => Some (false, HImm OP_PREL 2 14 IMM_14)          (* TSTBR14 *)
  | 280 => Some (false, HImm OP_PREL 2 19 IMM_19)          (* CONDBR19 *)
  | 282 | 283 => Some (false, HImm OP_PREL 2 26 IMM_26)    (* JUMP26, CALL26 *)
  | _ => None
  end.

(** Calling a handler: [ovf] and the memory. *)
Definition run_handler (h : handler) (m : mem) (loc val : Z) : Z * mem :=
  match h with
  | HNone => (0, m)
  | HData op len => reloc_data op m loc val len
  | HMovw op lsb t => reloc_insn_movw op m loc val lsb t
  | HImm op lsb len t => reloc_insn_imm op m loc val lsb len t
  end.

(** The loop body and loop, src/arch/aarch64/patch.c 213-418, for the same
    [struct load_info] as on x86-64 ([x86_job] and the address computations
    [x86_rel_base], [x86_loc], [x86_symp] are the same expressions: lines
    203-226).  [oc] is the variable [overflow_check], which is declared without
    initialiser (198) and not set to [true] anywhere; its initial value is a
    parameter. *)
Fixpoint a64_reloc_loop (j : x86_job) (oc : bool) (m : mem) (i : Z) (n : nat) : Z * mem :=
  match n with
  | O => (0, m)
  | S n' =>
      let relp := x86_rel_base j + sizeof_rela * i in
      let info := r_info_at m relp in
      let loc := x86_loc j (r_offset_at m relp) in
      let symp := x86_symp j (r_sym info) in
      let val := u64 (st_value_at m symp + r_addend_at m relp) in
      match a64_switch (r_type info) with
      | None => (- ENOEXEC, m)
      | Some (clear, h) =>
          let oc' := if clear then false else oc in
          let '(ovf, m') := run_handler h m loc val in
          if oc' && (ovf =? - ERANGE) then (- ENOEXEC, m')
          else a64_reloc_loop j oc' m' (i + 1) n'
      end
  end.

(** [arch_apply_relocate_add], src/arch/aarch64/patch.c 192-418. *)
Definition a64_apply_relocate_add (oc0 : bool) (j : x86_job) (m : mem) : Z * mem :=
  a64_reloc_loop j oc0 m 0 (Z.to_nat (sh_size (xj_sechdrs j (xj_relsec j)) / sizeof_rela)).
