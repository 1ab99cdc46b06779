(** Properties C19-C21: generated x86-64 branches and the jump entries. *)
From Coq Require Import ZArith List Bool Lia.
From Verif Require Import Word InsnModel InsnSpec InsnProofs.
Import ListNotations.
Open Scope Z_scope.

(** C19: the generated 5-byte call or jump, placed at its address and executed
    there, transfers control to the destination exactly if the destination is
    within the signed 32-bit displacement of the end of the instruction; a jump
    changes nothing else, a call pushes the address after itself. *)
Theorem C19_call_jump_reach : forall old op addr dest m regs,
  op = 0xe8 \/ op = 0xe9 -> 0 <= dest < 2 ^ 64 ->
  code_at m addr (text_gen_insn old op addr dest) ->
  exists s', x86_step (XCpu regs addr m) = Some s' /\
    (x_rip s' = dest <-> - 2 ^ 31 <= sx 64 (dest - (addr + 5)) < 2 ^ 31) /\
    (op = 0xe9 -> x_reg s' = regs /\ x_mem s' = m) /\
    (op = 0xe8 -> x_reg s' = set_reg regs rsp (addr64 (regs rsp - 8)) /\
                  x_mem s' = wr64 m (addr64 (regs rsp - 8)) (addr64 (addr + 5))).
Proof. exact call_jump_reach_iff. Qed.
Print Assumptions C19_call_jump_reach.

Theorem C19_jmpq_replace_reach : forall old addr dest m regs, 0 <= dest < 2 ^ 64 ->
  - 2 ^ 31 <= sx 64 (dest - (addr + 5)) < 2 ^ 31 ->
  code_at m addr (ulpatch_jmpq_replace old addr dest) ->
  x86_step (XCpu regs addr m) = Some (XCpu regs dest m).
Proof. exact jmpq_replace_reach. Qed.
Print Assumptions C19_jmpq_replace_reach.

(** C19, the short jump. *)
Theorem C19_jmp8_reach : forall old addr dest m regs, (forall x, 0 <= m x < 256) ->
  0 <= dest < 2 ^ 64 -> code_at m addr (text_gen_insn old 0xeb addr dest) ->
  exists s', x86_step (XCpu regs addr m) = Some s' /\ x_reg s' = regs /\ x_mem s' = m /\
    (x_rip s' = dest <-> - 2 ^ 7 <= sx 64 (dest - (addr + 2)) < 2 ^ 7).
Proof. exact jmp8_reach_iff. Qed.
Print Assumptions C19_jmp8_reach.

(** A backward jump across the wrap-around of the address space. *)
Example C19_example :
  let a := 0x10 in let d := 2 ^ 64 - 0x1000 in
  let m := code_mem a (text_gen_insn 0 0xe9 a d) in
  code_at m a (text_gen_insn 0 0xe9 a d) /\ - 2 ^ 31 <= sx 64 (d - (a + 5)) < 2 ^ 31 /\
  text_gen_insn 0 0xe9 a d = [0xe9; 0xeb; 0xef; 0xff; 0xff].
Proof.
  cbv zeta. split; [apply code_mem_at; vm_compute; reflexivity|].
  vm_compute. repeat split; discriminate.
Qed.

Example C19_jmp8_example :
  let a := 0x401000 in let d := 0x400ff0 in
  let m := code_mem a (text_gen_insn 0 0xeb a d) in
  code_at m a (text_gen_insn 0 0xeb a d) /\ - 2 ^ 7 <= sx 64 (d - (a + 2)) < 2 ^ 7.
Proof.
  cbv zeta. split; [apply code_mem_at; vm_compute; reflexivity|].
  vm_compute. split; [discriminate|reflexivity].
Qed.

(** C20: the 16-byte entry transfers control in one instruction and changes
    nothing but the instruction pointer. *)
Theorem C20_x86_jump_entry : forall m a dest regs, 0 <= dest < 2 ^ 64 ->
  code_at m a (jump_entry X86_64 dest) ->
  x86_step (XCpu regs a m) = Some (XCpu regs dest m).
Proof. exact x86_entry_exec. Qed.
Print Assumptions C20_x86_jump_entry.

Example C20_example :
  let b := jump_entry X86_64 0x7f1122334455 in
  code_at (code_mem 0x401136 b) 0x401136 b /\ length b = 16%nat.
Proof. split; [apply code_mem_at; vm_compute; reflexivity|reflexivity]. Qed.

(** C21: same on aarch64, in two instructions, clobbering x17 only. *)
Theorem C21_a64_jump_entry : forall m a dest regs, 0 <= dest < 2 ^ 64 ->
  code_at m a (jump_entry AARCH64 dest) ->
  a64_steps 2 (ACpu regs a m) = Some (ACpu (set_reg regs 17 dest) dest m).
Proof. exact a64_entry_exec. Qed.
Print Assumptions C21_a64_jump_entry.

Example C21_example :
  let b := jump_entry AARCH64 0xffff11223340 in
  code_at (code_mem 0x400700 b) 0x400700 b /\ length b = 16%nat.
Proof. split; [apply code_mem_at; vm_compute; reflexivity|reflexivity]. Qed.
