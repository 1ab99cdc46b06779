(** Instruction generation for x86-64 and the jump entries of both
    architectures: src/arch/x86_64/insn.c, src/arch/x86_64/instruments.h,
    src/patch/patch.c, src/patch/patch.h. *)
From Coq Require Import ZArith List Bool.
From Verif Require Import Word.
Import ListNotations.
Open Scope Z_scope.

(** src/arch/x86_64/instruments.h 34-41. *)
Definition INST_INT3 := 0xcc.
Definition INST_RET := 0xc3.
Definition INST_CALLQ := 0xe8.
Definition INST_JMPQ := 0xe9.
Definition INST_JMP8 := 0xeb.

(** [text_opcode_size], src/arch/x86_64/insn.c 17-33, with the sizes of
    src/arch/x86_64/instruments.h 11-17. *)
Definition text_opcode_size (opcode : Z) : Z :=
  if opcode =? INST_INT3 then 1
  else if opcode =? INST_RET then 1
  else if opcode =? INST_CALLQ then 5
  else if opcode =? INST_JMPQ then 5
  else if opcode =? INST_JMP8 then 2
  else 0.

(** [union text_poke_insn] (src/arch/x86_64/instruments.h 55-61): one opcode byte
    followed by a packed little-endian 32-bit displacement; as its 5 text bytes. *)
Definition text_poke_insn (opcode disp : Z) : list Z := u8 opcode :: le_bytes 4 (u32 disp).

(** [text_gen_insn], src/arch/x86_64/insn.c 35-57.  [old] is the displacement the
    caller's union held before; the "ERROR: JMP8" message has no effect on the
    result. *)
Definition text_gen_insn (old opcode addr dest : Z) : list Z :=
  let size := text_opcode_size (u8 opcode) in
  if 1 <? size
  then text_poke_insn opcode (s32 (s64 dest - s64 (u64 (addr + size))))
  else text_poke_insn opcode old.

(** [ulpatch_jmpq_replace], src/arch/x86_64/patch.c 17-21. *)
Definition ulpatch_jmpq_replace (old ip addr : Z) : list Z :=
  text_gen_insn old INST_JMPQ ip addr.

(** The architecture the tool is compiled for. *)
Inductive arch := X86_64 | AARCH64.

(** [arch_jmp_table_jmp], src/patch/patch.c 639-650. *)
Definition arch_jmp_table_jmp (a : arch) : Z :=
  match a with
  | X86_64 => 0x90900000000225ff
  | AARCH64 => 0xd61f022058000051
  end.

(** [struct jmp_table_entry], src/patch/patch.h 83-86, as its 16 bytes. *)
Definition jmp_table_entry (jmp addr : Z) : list Z := le_bytes 8 jmp ++ le_bytes 8 addr.

(** The entry written by [kick_target_process], src/patch/patch.c 859-917
    (jmp_entry.jmp, jmp_entry.addr). *)
Definition jump_entry (a : arch) (addr : Z) : list Z :=
  jmp_table_entry (arch_jmp_table_jmp a) addr.
