(** Tracing trampolines: src/arch/x86_64/mcount.S and src/arch/aarch64/mcount.S.

    Registers are numbered; every register holds an unsigned number (64 bits, vector
    registers 128 bits).  Memory is bytes.  The hook (mcount_entry, mcount_exit) is a
    function from the state at its first instruction to the state at its return.
    Flags, instruction addresses, stack unwinding directives and faults are not
    modelled. *)
From Coq Require Import ZArith List Bool.
From Verif Require Import Word.
Import ListNotations.
Open Scope Z_scope.

Record cpu := Cpu { gp : Z -> Z; vr : Z -> Z; me : mem }.

Definition up (f : Z -> Z) (i v : Z) : Z -> Z := fun x => if x =? i then v else f x.
Definition setg (c : cpu) (i v : Z) : cpu := Cpu (up (gp c) i v) (vr c) (me c).
Definition setv (c : cpu) (i v : Z) : cpu := Cpu (gp c) (up (vr c) i v) (me c).
Definition setm (c : cpu) (m : mem) : cpu := Cpu (gp c) (vr c) m.

(** ** x86_64 *)

(** The numbers of the registers in instructions. *)
Definition RAX := 0. Definition RCX := 1. Definition RDX := 2. Definition RBX := 3.
Definition RSP := 4. Definition RBP := 5. Definition RSI := 6. Definition RDI := 7.
Definition R8 := 8. Definition R9 := 9.

(** The instructions used. *)
Inductive xins :=
| XSub (k : Z)               (* sub $k, %rsp *)
| XAdd (k : Z)               (* add $k, %rsp *)
| XStore (r off : Z)         (* movq %r, off(%rsp) *)
| XLoad (off r : Z)          (* movq off(%rsp), %r *)
| XStoreV (x off : Z)        (* movdqu %xmmx, off(%rsp) *)
| XLoadV (off x : Z)         (* movdqu off(%rsp), %xmmx *)
| XLea (off b r : Z)         (* lea off(%b), %r *)
| XMov (s d : Z)             (* movq %s, %d *)
| XAlign                     (* andq $0xfffffffffffffff0, %rsp *)
| XPush (r : Z)
| XPop (r : Z)
| XCall (ret : Z).           (* call hook; ret is the address of the next instruction *)

Definition xstep (hook : cpu -> cpu) (c : cpu) (i : xins) : cpu :=
  let sp := gp c RSP in
  match i with
  | XSub k => setg c RSP (u64 (sp - k))
  | XAdd k => setg c RSP (u64 (sp + k))
  | XStore r off => setm c (st 8 (me c) (u64 (sp + off)) (gp c r))
  | XLoad off r => setg c r (ld 8 (me c) (u64 (sp + off)))
  | XStoreV x off => setm c (st 16 (me c) (u64 (sp + off)) (vr c x))
  | XLoadV off x => setv c x (ld 16 (me c) (u64 (sp + off)))
  | XLea off b r => setg c r (u64 (gp c b + off))
  | XMov s d => setg c d (gp c s)
  | XAlign => setg c RSP (Z.land sp 18446744073709551600)
  | XPush r => let a := u64 (sp - 8) in setg (setm c (st 8 (me c) a (gp c r))) RSP a
  | XPop r => setg (setg c RSP (u64 (sp + 8))) r (ld 8 (me c) sp)
  | XCall ret => let a := u64 (sp - 8) in hook (setg (setm c (st 8 (me c) a ret)) RSP a)
  end.
Definition xrun (hook : cpu -> cpu) (l : list xins) (c : cpu) : cpu := fold_left (xstep hook) l c.

(** retq: the address continued at and the state there. *)
Definition xret (c : cpu) : Z * cpu := (ld 8 (me c) (gp c RSP), setg c RSP (u64 (gp c RSP + 8))).

(** _ftrace_mcount, mcount.S 31-82, before and after the call. *)
Definition x86_entry_pre : list xins :=
  [XSub 48; XStore RDI 40; XStore RSI 32; XStore RDX 24; XStore RCX 16; XStore R8 8; XStore R9 0;
   XLoad 48 RSI; XLea 8 RBP RDI; XMov RSP RDX; XAlign; XPush RDX; XPush RAX].
Definition x86_entry_post : list xins :=
  [XPop RAX; XPop RDX; XMov RDX RSP; XLoad 0 R9; XLoad 8 R8; XLoad 16 RCX; XLoad 24 RDX; XLoad 32 RSI; XLoad 40 RDI; XAdd 48].
Definition x86_entry (hook : cpu -> cpu) (ret : Z) (c : cpu) : Z * cpu :=
  xret (xrun hook (x86_entry_pre ++ [XCall ret] ++ x86_entry_post) c).

(** _ftrace_mcount_return, mcount.S 89-127. *)
Definition x86_exit_pre : list xins :=
  [XSub 48; XStore RDI 32; XStoreV 0 16; XStore RDX 8; XStore RAX 0; XMov RSP RDI; XAlign; XSub 16; XStore RDI 0].
Definition x86_exit_post : list xins :=
  [XLoad 0 RSP; XStore RAX 40; XLoad 0 RAX; XLoad 8 RDX; XLoadV 16 0; XLoad 32 RDI; XAdd 40].
Definition x86_exit (hook : cpu -> cpu) (ret : Z) (c : cpu) : Z * cpu :=
  xret (xrun hook (x86_exit_pre ++ [XCall ret] ++ x86_exit_post) c).

(** ** aarch64: x0..x30 are 0..30, sp is 31 *)

Definition ASP := 31.
Inductive ains :=
| AStp (a b : Z)             (* stp xa, xb, [sp, #-16]! *)
| ALdp (a b : Z)             (* ldp xa, xb, [sp], #16 *)
| AStrQ (q : Z)              (* str qq, [sp, #-16]! *)
| ALdrQ (q : Z)              (* ldr qq, [sp], #16 *)
| AMov (d s : Z)             (* mov xd, xs *)
| ALdr (d b : Z)             (* ldr xd, [xb] *)
| AAdd (d s k : Z)           (* add xd, xs, #k *)
| ABl (ret : Z).             (* bl hook *)

Definition astep (hook : cpu -> cpu) (c : cpu) (i : ains) : cpu :=
  let sp := gp c ASP in
  match i with
  | AStp a b => let n := u64 (sp - 16) in setg (setm c (st 8 (st 8 (me c) n (gp c a)) (u64 (n + 8)) (gp c b))) ASP n
  | ALdp a b => setg (setg (setg c a (ld 8 (me c) sp)) b (ld 8 (me c) (u64 (sp + 8)))) ASP (u64 (sp + 16))
  | AStrQ q => let n := u64 (sp - 16) in setg (setm c (st 16 (me c) n (vr c q))) ASP n
  | ALdrQ q => setg (setv c q (ld 16 (me c) sp)) ASP (u64 (sp + 16))
  | AMov d s => setg c d (gp c s)
  | ALdr d b => setg c d (ld 8 (me c) (gp c b))
  | AAdd d s k => setg c d (u64 (gp c s + k))
  | ABl ret => hook (setg c 30 ret)
  end.
Definition arun (hook : cpu -> cpu) (l : list ains) (c : cpu) : cpu := fold_left (astep hook) l c.

(** _ftrace_mcount, mcount.S 6-38: the end is ret, to x30. *)
Definition a64_entry_pre : list ains :=
  [AStp 29 30; AMov 29 ASP; AStp 8 18; AStp 6 7; AStp 4 5; AStp 2 3; AStp 0 1; ALdr 0 29; AAdd 0 0 8; AMov 1 30; AMov 2 ASP].
Definition a64_entry_post : list ains := [ALdp 0 1; ALdp 2 3; ALdp 4 5; ALdp 6 7; ALdp 8 18; ALdp 29 30].
Definition a64_entry (hook : cpu -> cpu) (ret : Z) (c : cpu) : Z * cpu :=
  let c := arun hook (a64_entry_pre ++ [ABl ret] ++ a64_entry_post) c in (gp c 30, c).

(** _ftrace_mcount_return, mcount.S 41-71: the end is br x16. *)
Definition a64_exit_pre : list ains := [AStp 29 30; AStp 0 1; AStrQ 0; AStp 8 18; AAdd 0 ASP 32].
Definition a64_exit_post : list ains := [AMov 16 0; ALdp 8 18; ALdrQ 0; ALdp 0 1; ALdp 29 30].
Definition a64_exit (hook : cpu -> cpu) (ret : Z) (c : cpu) : Z * cpu :=
  let c := arun hook (a64_exit_pre ++ [ABl ret] ++ a64_exit_post) c in (gp c 16, c).
