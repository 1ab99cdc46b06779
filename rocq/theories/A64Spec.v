(** What the aarch64 immediates, branches and relocations mean (Arm ARM and
    "ELF for the Arm 64-bit architecture"); independent of the code model except
    for the names of the field kinds. *)
From Coq Require Import ZArith List Bool.
From Verif Require Import InsnSpec A64Model.
Import ListNotations.
Open Scope Z_scope.

(** The bit ranges (lowest bit, width) of an instruction that hold the immediate,
    least significant part first. *)
Definition field_ranges (t : imm_type) : list (Z * Z) :=
  match t with
  | IMM_ADR => [(29, 2); (5, 19)]
  | IMM_26 => [(0, 26)]
  | IMM_19 => [(5, 19)]
  | IMM_16 => [(5, 16)]
  | IMM_14 => [(5, 14)]
  | IMM_12 => [(10, 12)]
  | IMM_9 => [(12, 9)]
  | IMM_7 => [(15, 7)]
  | IMM_6 | IMM_S => [(10, 6)]
  | IMM_R => [(16, 6)]
  | IMM_N => [(22, 1)]
  | IMM_MAX => []
  end.

Fixpoint total_width (l : list (Z * Z)) : Z :=
  match l with [] => 0 | (_, w) :: r => w + total_width r end.

Definition imm_width (t : imm_type) : Z := total_width (field_ranges t).

Fixpoint gather (l : list (Z * Z)) (insn : Z) : Z :=
  match l with
  | [] => 0
  | (lo, w) :: r => bits insn lo w + 2 ^ w * gather r insn
  end.

(** The immediate held by an instruction. *)
Definition imm_of (t : imm_type) (insn : Z) : Z := gather (field_ranges t) insn.

Definition in_ranges (l : list (Z * Z)) (i : Z) : Prop :=
  exists lo w, In (lo, w) l /\ lo <= i < lo + w.

(** Bits outside the field agree. *)
Definition same_outside (t : imm_type) (a b : Z) : Prop :=
  forall i, 0 <= i -> ~ in_ranges (field_ranges t) i -> Z.testbit a i = Z.testbit b i.

(** The BRK instruction used as "fault on purpose": brk #0x100. *)
Definition brk_fault := 0xd4202000.

(** Mathematical relocation value for symbol value + addend [SA] and place [P]. *)
Definition reloc_value (op : reloc_op) (SA P : Z) : Z :=
  match op with
  | OP_ABS => SA
  | OP_PREL => SA - P
  | OP_PAGE => (SA / 4096) * 4096 - (P / 4096) * 4096
  | OP_NONE => 0
  end.

(** As a signed 64-bit number. *)
Definition sval (op : reloc_op) (SA P : Z) : Z := sx 64 (reloc_value op SA P).

Definition in_signed (n v : Z) : Prop := - 2 ^ (n - 1) <= v < 2 ^ (n - 1).
Definition in_unsigned (n v : Z) : Prop := 0 <= v < 2 ^ n.

(** Is a move-wide instruction: bits 28..23 are 100101. *)
Definition is_move_wide (insn : Z) : Prop := bits insn 23 6 = 0x25.

(** Value built by a 64-bit MOVZ (opc 10) or MOVN (opc 00) whose 16-bit
    immediate is shifted by [lsb], as a signed number. *)
Definition move_wide_value (insn lsb : Z) : option Z :=
  match bits insn 29 2 with
  | 2 => Some (imm_of IMM_16 insn * 2 ^ lsb)
  | 0 => Some (- (imm_of IMM_16 insn * 2 ^ lsb) - 1)
  | _ => None
  end.

(** ** Relocation of a placed image *)

(** Bytes of the field of each relocation type. *)
Definition a64_width (ty : Z) : Z :=
  match ty with
  | 257 | 260 => 8
  | 258 | 261 => 4
  | 259 | 262 => 2
  | 263 | 264 | 265 | 266 | 267 | 268 | 269 | 270 | 271 | 272
  | 287 | 288 | 289 | 290 | 291 | 292 | 293
  | 273 | 274 | 275 | 276 | 277 | 278 | 279 | 280 | 282 | 283 | 284 | 285 | 286 | 299 => 4
  | _ => 0
  end.

(** Types whose value must be range checked, after AAELF64: operation, number
    of low bits dropped, and the admissible range of what remains.  For ABS16 and
    ABS32 AAELF64 also admits small negative values; this table takes the narrower
    unsigned range, so that it errs on the side of "overflow". *)
Definition checked_range (ty : Z) : option (reloc_op * Z * Z * Z) :=
  match ty with
  | 258 => Some (OP_ABS, 0, 0, 2 ^ 32)
  | 259 => Some (OP_ABS, 0, 0, 2 ^ 16)
  | 261 => Some (OP_PREL, 0, - 2 ^ 31, 2 ^ 31)
  | 262 => Some (OP_PREL, 0, - 2 ^ 15, 2 ^ 15)
  | 263 => Some (OP_ABS, 0, 0, 2 ^ 16)
  | 265 => Some (OP_ABS, 16, 0, 2 ^ 16)
  | 267 => Some (OP_ABS, 32, 0, 2 ^ 16)
  | 270 => Some (OP_ABS, 0, - 2 ^ 16, 2 ^ 16)
  | 271 => Some (OP_ABS, 16, - 2 ^ 16, 2 ^ 16)
  | 272 => Some (OP_ABS, 32, - 2 ^ 16, 2 ^ 16)
  | 287 => Some (OP_PREL, 0, - 2 ^ 16, 2 ^ 16)
  | 289 => Some (OP_PREL, 16, - 2 ^ 16, 2 ^ 16)
  | 291 => Some (OP_PREL, 32, - 2 ^ 16, 2 ^ 16)
  | 273 | 280 => Some (OP_PREL, 2, - 2 ^ 18, 2 ^ 18)
  | 274 => Some (OP_PREL, 0, - 2 ^ 20, 2 ^ 20)
  | 275 => Some (OP_PAGE, 12, - 2 ^ 20, 2 ^ 20)
  | 279 => Some (OP_PREL, 2, - 2 ^ 13, 2 ^ 13)
  | 282 | 283 => Some (OP_PREL, 2, - 2 ^ 25, 2 ^ 25)
  | _ => None
  end.

(** Types without a range check. *)
Definition unchecked_type (ty : Z) : bool :=
  match ty with
  | 257 | 260 | 264 | 266 | 268 | 269 | 288 | 290 | 292 | 293 | 276 | 277 | 278
  | 284 | 285 | 286 | 299 => true
  | _ => false
  end.

(** The relocation overflows for symbol value plus addend [SA] at place [P]. *)
Definition overflows (ty SA P : Z) : Prop :=
  match checked_range ty with
  | Some (op, sh, lo, hi) => ~ (lo <= sval op SA P / 2 ^ sh < hi)
  | None => False
  end.
