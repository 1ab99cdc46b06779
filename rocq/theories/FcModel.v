(** Finding and replacing the call of mcount at the beginning of a function:
    src/arch/x86_64/insn.c 65-75, src/arch/x86_64/ftrace.c, src/arch/x86_64/alternative.c,
    src/arch/aarch64/insn.c 224-234. *)
From Coq Require Import ZArith List Bool.
From Verif Require Import Word InsnModel.
Import ListNotations.
Open Scope Z_scope.

(** x86_64_func_callq_offset, insn.c 65-75: [None] when the fuel is used up; the loop of
    the code has no bound. *)
Fixpoint callq_loop (fuel : nat) (m : mem) (func offset : Z) : option Z :=
  match fuel with
  | O => None
  | S k => if m (u64 (func + offset)) =? INST_CALLQ then Some offset else callq_loop k m func (u32 (offset + 1))
  end.
Definition x86_64_func_callq_offset (fuel : nat) (m : mem) (func : Z) : option Z := callq_loop fuel m func 0.

(** aarch64_insn_is_bl, instruments.h 58-63, 140. *)
Definition is_bl (code : Z) : bool := Z.land code 0xFC000000 =? 0x94000000.

(** aarch64_func_bl_offset, aarch64/insn.c 224-234. *)
Fixpoint bl_loop (fuel : nat) (m : mem) (func offset : Z) : option Z :=
  match fuel with
  | O => None
  | S k => if is_bl (ld 4 m (u64 (func + offset))) then Some offset else bl_loop k m func (u32 (offset + 4))
  end.
Definition aarch64_func_bl_offset (fuel : nat) (m : mem) (func : Z) : option Z := bl_loop fuel m func 0.

(** p6nops, alternative.c 39-50 with nops.h 83-91; p6_nops, 51-63: where each begins. *)
Definition p6nops : list Z :=
  [0x90] ++ [0x66; 0x90] ++ [0x0f; 0x1f; 0x00] ++ [0x0f; 0x1f; 0x40; 0] ++ [0x0f; 0x1f; 0x44; 0x00; 0] ++
  [0x66; 0x0f; 0x1f; 0x44; 0x00; 0] ++ [0x0f; 0x1f; 0x80; 0; 0; 0; 0] ++ [0x0f; 0x1f; 0x84; 0x00; 0; 0; 0; 0] ++ [0x0f; 0x1f; 0x44; 0x00; 0].
Definition p6_nops : list (option nat) :=
  [None; Some 0; Some 1; Some (1 + 2); Some (1 + 2 + 3); Some (1 + 2 + 3 + 4); Some (1 + 2 + 3 + 4 + 5); Some (1 + 2 + 3 + 4 + 5 + 6);
   Some (1 + 2 + 3 + 4 + 5 + 6 + 7); Some (1 + 2 + 3 + 4 + 5 + 6 + 7 + 8)]%nat.
Definition ASM_NOP_MAX := 8%nat. Definition NOP_ATOMIC5 := S ASM_NOP_MAX.

(** ftrace_nop_replace, x86_64/ftrace.c 15-18: the bytes from the pointer on. *)
Definition ftrace_nop_replace : list Z :=
  match nth NOP_ATOMIC5 p6_nops None with Some o => skipn o p6nops | None => [] end.

(** ftrace_call_replace, x86_64/ftrace.c 20-24. *)
Definition ftrace_call_replace (old ip addr : Z) : list Z := text_gen_insn old INST_CALLQ ip addr.
