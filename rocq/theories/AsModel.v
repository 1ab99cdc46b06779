(** The system calls built into patches: src/patch/asm.h.

    Each macro is an extended asm statement of GCC or clang.  What the compiler may do with
    it is a [choice]: the registers of the operands, whether a statement whose result is not
    used is left out, whether an object of which only the address is an operand has been
    stored before.  Flags, faults and instruction addresses are not modelled. *)
From Coq Require Import ZArith List Bool.
From Verif Require Import Word InsnModel.
Import ListNotations.
Open Scope Z_scope.

(** A system call as the kernel finds it: number, arguments, memory. *)
Record call := Call { c_nr : Z; c_args : list Z; c_mem : mem }.
(** The kernel: the result and the memory after the call, None if it does not return. *)
Definition kernel := call -> option (Z * mem).

(** Registers, memory, system calls made, whether the thread still runs.  Registers are
    numbered as in TrModel: x86-64 in the order of the instruction set, aarch64 x0 to x30,
    31 is sp. *)
Record state := St { gp : Z -> Z; me : mem; calls : list call; live : bool }.
Definition set (s : state) (r v : Z) : state :=
  St (fun x => if x =? r then v else gp s x) (me s) (calls s) (live s).
Definition setm (s : state) (m : mem) : state := St (gp s) m (calls s) (live s).

(** Where an operand is: a register, or for the constraint "g" a constant or memory. *)
Inductive src := Sreg (r : Z) | Simm (v : Z).
Inductive loc := Lreg (r : Z) | Lmem (a : Z).
Definition val (s : state) (o : src) : Z := match o with Sreg r => gp s r | Simm v => u64 v end.

Record choice := Ch { ch_drop : bool; ch_stored : bool; ch_out : loc; ch_in : nat -> src }.

(** The value of the output operand, of type int, afterwards. *)
Definition out_val (l : loc) (s : state) : Z :=
  s32 (match l with Lreg r => gp s r | Lmem a => ld 4 (me s) a end).

(** ** x86-64 *)
Definition RAX := 0. Definition RCX := 1. Definition RDX := 2. Definition RSP := 4.
Definition RSI := 6. Definition RDI := 7. Definition R8 := 8. Definition R9 := 9.
Definition R10 := 10. Definition R11 := 11.

Inductive xins :=
| XMov (o : src) (d : Z)     (* movq o, %d *)
| XMov32 (o : src) (d : Z)   (* mov o, %d, 32 bits *)
| XMov8 (r d : Z)            (* mov %r, %d, the lowest byte *)
| XImm (k d : Z)             (* movq $k, %d *)
| XImm8 (k d : Z)            (* mov $k, %d, the lowest byte *)
| XZero (d : Z)              (* xor %d, %d *)
| XPush (k : Z)              (* push $k *)
| XPop (d : Z)
| XSyscall.

(** Replacing the lowest byte of a register. *)
Definition low8 (old b : Z) : Z := old - old mod 256 + b mod 256.

(** [rip] and [fl] are what the syscall instruction leaves in rcx and r11. *)
Definition xstep (k : kernel) (rip fl : Z) (s : state) (i : xins) : state :=
  if negb (live s) then s else
  match i with
  | XMov o d => set s d (val s o)
  | XMov32 o d => set s d (u32 (val s o))
  | XMov8 r d => set s d (low8 (gp s d) (gp s r))
  | XImm v d => set s d (u64 v)
  | XImm8 v d => set s d (low8 (gp s d) v)
  | XZero d => set s d 0
  | XPush v => let a := u64 (gp s RSP - 8) in set (setm s (st 8 (me s) a v)) RSP a
  | XPop d => set (set s RSP (u64 (gp s RSP + 8))) d (ld 8 (me s) (gp s RSP))
  | XSyscall =>
      let c := Call (gp s RAX) [gp s RDI; gp s RSI; gp s RDX; gp s R10; gp s R8; gp s R9] (me s) in
      match k c with
      | None => St (gp s) (me s) (calls s ++ [c]) false
      | Some (r, m) => set (set (set (St (gp s) m (calls s ++ [c]) true) RAX (u64 r)) RCX rip) R11 fl
      end
  end.
Definition xrun (k : kernel) (rip fl : Z) (l : list xins) (s : state) : state := fold_left (xstep k rip fl) l s.

(** __ulp_builtin_sleep_x86_64, asm.h 20-30: operand 0 is the address of ____ts. *)
Definition x86_sleep (ch : choice) : list xins := [XMov (ch_in ch 0) RDI; XZero RSI; XImm 35 RAX; XSyscall].
(** __ulp_builtin_exit_x86_64, asm.h 58-67. *)
Definition x86_exit (ch : choice) : list xins := [XMov32 (ch_in ch 0) RDI; XImm 60 RAX; XSyscall].
(** __ulp_builtin_write_x86_64, asm.h 89-104: operands fd, msg, len. *)
Definition x86_write (ch : choice) : list xins :=
  [XMov32 (ch_in ch 0) RDI; XMov (ch_in ch 1) RSI; XMov (ch_in ch 2) RDX; XImm 1 RAX; XSyscall].
(** __ulp_builtin_write_hello_x86_64, asm.h 107-117. *)
Definition x86_hello : list xins :=
  [XImm8 1 RAX; XMov8 RAX RDI; XPush 0x00000a6f; XPush 0x6c6c6548; XMov (Sreg RSP) RSI; XImm8 0xc RDX;
   XSyscall; XPop RSI; XPop RSI].

(** ** aarch64 *)
Definition ASP := 31.
Inductive ains :=
| AStp (a b k : Z)           (* stp xa, xb, [sp, #-k]! *)
| ALdp (a b k : Z)           (* ldp xa, xb, [sp], #k *)
| AMov (d : Z) (o : src)     (* mov xd, o; mov wd, #o *)
| AStr (o : src) (k : Z)     (* str o, [sp, #k]; xzr is the constant 0 *)
| AStrb (r k : Z)            (* strb wr, [sp, #k] *)
| ALdr (d k : Z)             (* ldr xd, [sp, #k] *)
| AAddSp (d k : Z)           (* add xd, sp, #k *)
| ASvc.

Definition astep (k : kernel) (s : state) (i : ains) : state :=
  if negb (live s) then s else
  let sp := gp s ASP in
  match i with
  | AStp a b n =>
      let t := u64 (sp - n) in set (setm s (st 8 (st 8 (me s) t (gp s a)) (t + 8) (gp s b))) ASP t
  | ALdp a b n => set (set (set s a (ld 8 (me s) sp)) b (ld 8 (me s) (sp + 8))) ASP (u64 (sp + n))
  | AMov d o => set s d (val s o)
  | AStr o n => setm s (st 8 (me s) (u64 (sp + n)) (val s o))
  | AStrb r n => setm s (st 1 (me s) (u64 (sp + n)) (gp s r))
  | ALdr d n => set s d (ld 8 (me s) (u64 (sp + n)))
  | AAddSp d n => set s d (u64 (sp + n))
  | ASvc =>
      let c := Call (gp s 8) [gp s 0; gp s 1; gp s 2; gp s 3; gp s 4; gp s 5] (me s) in
      match k c with
      | None => St (gp s) (me s) (calls s ++ [c]) false
      | Some (r, m) => set (St (gp s) m (calls s ++ [c]) true) 0 (u64 r)
      end
  end.
Definition arun (k : kernel) (l : list ains) (s : state) : state := fold_left (astep k) l s.

(** __ulp_builtin_sleep_aarch64, asm.h 32-46: operands pts and rem. *)
Definition a64_sleep (ch : choice) : list ains :=
  [AStp 0 1 16; AMov 0 (ch_in ch 0); AMov 1 (ch_in ch 1); AMov 8 (Simm 0x65); ASvc; ALdp 0 1 16].
(** __ulp_builtin_exit_aarch64, asm.h 69-76. *)
Definition a64_exit (ch : choice) : list ains := [AMov 0 (ch_in ch 0); AMov 8 (Simm 0x5d); ASvc].
(** __ulp_builtin_write_aarch64, asm.h 119-136. *)
Definition a64_write (ch : choice) : list ains :=
  [AStp 0 1 32; AMov 0 (ch_in ch 0); AMov 1 (ch_in ch 1); AMov 2 (ch_in ch 2); AMov 8 (Simm 64); ASvc; ALdp 0 1 32].
(** __ulp_builtin_write_hello_aarch64, asm.h 138-163. *)
Definition a64_hello : list ains :=
  [AStp 29 30 32; AMov 29 (Sreg ASP); AStr (Simm 0) 16;
   AMov 0 (Simm 0x48); AStrb 0 16; AMov 0 (Simm 0x65); AStrb 0 17; AMov 0 (Simm 0x6c); AStrb 0 18;
   AMov 0 (Simm 0x6c); AStrb 0 19; AMov 0 (Simm 0x6f); AStrb 0 20; AMov 0 (Simm 0xa); AStrb 0 21;
   AAddSp 0 16; AStr (Sreg 0) 24; AMov 0 (Simm 1); ALdr 1 24; AMov 2 (Simm 8); AMov 8 (Simm 64); ASvc; ALdp 29 30 32].

(** ** The macros *)

(** What a patch asks for.  For sleeping, [ts] is the address of the macro's local variable
    ____ts. *)
Inductive request := Sleep (sec ts : Z) | Exit (v : Z) | Write (fd msg len : Z).

(** The local variable set up by the macro (asm.h 22, 34), if the compiler stores it before
    the statement. *)
Definition prepared (rq : request) (ch : choice) (s : state) : state :=
  match rq with
  | Sleep sec ts => if ch_stored ch then setm s (st 8 (st 8 (me s) ts sec) (ts + 8) 0) else s
  | _ => s
  end.

Definition builtin (a : arch) (k : kernel) (rip fl : Z) (rq : request) (ch : choice) (s : state) : state :=
  let s := prepared rq ch s in
  if ch_drop ch then s else
  match a, rq with
  | X86_64, Sleep _ _ => xrun k rip fl (x86_sleep ch) s
  | X86_64, Exit _ => xrun k rip fl (x86_exit ch) s
  | X86_64, Write _ _ _ => xrun k rip fl (x86_write ch) s
  | AARCH64, Sleep _ _ => arun k (a64_sleep ch) s
  | AARCH64, Exit _ => arun k (a64_exit ch) s
  | AARCH64, Write _ _ _ => arun k (a64_write ch) s
  end.

(** The greeting has no operands, so that the compiler keeps it. *)
Definition hello (a : arch) (k : kernel) (rip fl : Z) (s : state) : state :=
  match a with
  | X86_64 => xrun k rip fl x86_hello s
  | AARCH64 => arun k a64_hello s
  end.
