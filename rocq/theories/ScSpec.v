(** What the remote system call properties mean. *)
From Coq Require Import ZArith String List Bool.
From Verif Require Import Word Str ScModel.
Import ListNotations.
Open Scope Z_scope.

(** [x] lies in the [size] bytes at [base]. *)
Definition within (base size x : Z) : Prop := base <= x < base + size.

(** While it runs, the target does not change the byte at [x]. *)
Definition untouched (e : env) (x : Z) : Prop :=
  forall n r m sig, match e_wait e n r m sig with
                    | WFail => True
                    | WStopped _ _ m' | WEnded _ _ m' => m' x = m x
                    end.

(** Reads and writes of [size] bytes at [base] are complete. *)
Definition accessible (e : env) (base size : Z) : Prop :=
  forall n, e_read e n base size = Some size /\ e_write e n base size = Some size.

(** No read or write transfers more than asked for. *)
Definition sane (e : env) : Prop :=
  forall n a s k, e_read e n a s = Some k \/ e_write e n a s = Some k -> k <= s.

(** Error numbers are positive. *)
Definition errnos (e : env) : Prop :=
  forall n x, e_getregs e n = Some x \/ e_setregs e n = Some x -> 0 < x < 4096.

(** A value by which a Linux system call reports an error. *)
Definition err_code (r : Z) : Prop := 2 ^ 64 - 4096 < r < 2 ^ 64.

(** ** The processors

    What happens when the target is continued at a system call instruction followed
    by a breakpoint, according to the architecture manuals and the Linux system call
    convention; [kernel nr args m] is the effect of the system call. *)
Definition kernel := Z -> list Z -> mem -> Z * mem.

(** x86_64: SYSCALL takes the number from rax and the arguments from rdi, rsi, rdx, r10,
    r8, r9, returns in rax, saves the return address in rcx and the flags in r11.
    INT3 stops with SIGTRAP after the instruction. *)
Definition x86_exec (k : kernel) (r : regs) (m : mem) : option (regs * mem) :=
  let ip := r RIP in
  if (m ip =? 0x0f) && (m (ip + 1) =? 0x05) then
    let '(v, m') := k (r RAX) [r RDI; r RSI; r RDX; r R10; r R8; r R9] m in
    if m' (ip + 2) =? 0xcc then
      Some (setr (setr (setr (setr r RAX v) RCX (ip + 2)) R11 (r EFLAGS)) RIP (ip + 3), m')
    else None
  else None.

(** aarch64: SVC takes the number from x8 and the arguments from x0-x5 and returns in x0.
    BRK stops with SIGTRAP at the instruction. *)
Definition a64_exec (k : kernel) (r : regs) (m : mem) : option (regs * mem) :=
  let ip := r PC in
  if (ld 4 m ip =? 0xd4000001) then
    let '(v, m') := k (r 8) [r 0; r 1; r 2; r 3; r 4; r 5] m in
    if ld 4 m' (ip + 4) =? 0xd42000a0 then Some (setr (setr r 0 v) PC (ip + 4), m') else None
  else None.

(** A target that does what the processor does and gets no other signal; nothing fails. *)
Definition runs (exec : regs -> mem -> option (regs * mem)) (e : env) : Prop :=
  (forall n, e_getregs e n = None) /\ (forall n, e_setregs e n = None) /\ (forall n, e_cont e n = None) /\
  (forall n a s, e_read e n a s = Some s /\ e_write e n a s = Some s) /\
  (forall n r m r' m', exec r m = Some (r', m') -> e_wait e n r m 0 = WStopped SIGTRAP r' m').

(** The kernel was entered once, with number [nr] and arguments [args], found the
    target's memory (but for the borrowed code) and answered [v]; the target then has the
    registers it had before, and the memory the kernel left (but for the borrowed code). *)
Definition answered (k : kernel) (base size : Z) (w : world) (nr : Z) (args : list Z) (v : Z) (w' : world) : Prop :=
  exists m0, (forall x, ~ within base size x -> m0 x = t_mem (w_t w) x) /\
    v = fst (k nr args m0) /\ t_regs (w_t w') = t_regs (w_t w) /\ t_attached (w_t w') = t_attached (w_t w) /\
    (forall x, within base size x -> t_mem (w_t w') x = t_mem (w_t w) x) /\
    (forall x, ~ within base size x -> t_mem (w_t w') x = snd (k nr args m0) x).

(** The value of the 32-bit signed integer in the low half of a register. *)
Definition as_int (v : Z) : Z := if v mod 2 ^ 32 <? 2 ^ 31 then v mod 2 ^ 32 else v mod 2 ^ 32 - 2 ^ 32.

(** What the remote operations are to ask the kernel for, in terms of the Linux system
    call interface: [nmmap] ... are the system call numbers, [at_cwd] the arguments that
    precede the path of the open call.  Memory is allocated as a private (2) anonymous
    (0x20) mapping, readable (1) and writable (2), without file (-1). *)
Record ops := Ops {
  op_malloc : world -> Z -> option (Z * world);
  op_mmap : world -> Z -> Z -> Z -> Z -> Z -> Z -> option (Z * world);
  op_munmap : world -> Z -> Z -> option (Z * world);
  op_mprotect : world -> Z -> Z -> Z -> option (Z * world);
  op_msync : world -> Z -> Z -> Z -> option (Z * world);
  op_open : world -> list Z -> Z -> Z -> option (Z * world);
  op_close : world -> Z -> option (Z * world);
  op_ftruncate : world -> Z -> Z -> option (Z * world) }.

Definition asks (k : kernel) (base size : Z) (nmmap nmunmap nmprotect nmsync nopen nclose nftruncate : Z)
    (at_cwd : list Z) (trail : list Z) (o : ops) : Prop :=
  let ans := answered k base size in
  (forall w len, exists v w', ans w nmmap [0; len; 3; 34; 2 ^ 64 - 1; 0] v w' /\
     op_malloc o w len = Some (if v =? 2 ^ 64 - 1 then 0 else v, w')) /\
  (forall w addr len prot flags fd off, 0 <= prot < 2 ^ 31 -> 0 <= flags < 2 ^ 31 -> 0 <= fd < 2 ^ 31 -> 0 <= off < 2 ^ 63 ->
     exists v w', ans w nmmap [addr; len; prot; flags; fd; off] v w' /\ op_mmap o w addr len prot flags fd off = Some (v, w')) /\
  (forall w addr len, exists v w', ans w nmunmap [addr; len; 0; 0; 0; 0] v w' /\ op_munmap o w addr len = Some (as_int v, w')) /\
  (forall w addr len prot, 0 <= prot < 2 ^ 31 -> exists v w', ans w nmprotect [addr; len; prot; 0; 0; 0] v w' /\
     op_mprotect o w addr len prot = Some (as_int v, w')) /\
  (forall w addr len flags, 0 <= flags < 2 ^ 31 -> exists v w', ans w nmsync [addr; len; flags; 0; 0; 0] v w' /\
     op_msync o w addr len flags = Some (as_int v, w')) /\
  (forall w fd, 2 < fd < 2 ^ 31 -> exists v w', ans w nclose [fd; 0; 0; 0; 0; 0] v w' /\ op_close o w fd = Some (as_int v, w')) /\
  (forall w fd len, 2 < fd < 2 ^ 31 -> 0 <= len < 2 ^ 63 -> exists v w', ans w nftruncate [fd; len; 0; 0; 0; 0] v w' /\
     op_ftruncate o w fd len = Some (as_int v, w')) /\
  (** the path is first copied, with its final zero, to memory allocated in the target
      for this purpose, and that memory is given back *)
  (forall w path flags mode, 0 <= flags < 2 ^ 31 -> 0 <= mode < 2 ^ 31 -> 
     exists buf w1 w2 v w3 r w4,
       let n := Z.of_nat (List.length path) + 1 in
       ans w nmmap [0; n; 3; 34; 2 ^ 64 - 1; 0] buf w1 /\ 
       (let b := if buf =? 2 ^ 64 - 1 then 0 else buf in
        (forall x, t_mem (w_t w2) x = if (b <=? x) && (x <? b + n) then nth (Z.to_nat (x - b)) path 0 else t_mem (w_t w1) x) /\
        t_regs (w_t w2) = t_regs (w_t w1) /\
        ans w2 nopen (at_cwd ++ [b; flags; mode] ++ trail) v w3 /\ 
        ans w3 nmunmap [b; n; 0; 0; 0; 0] r w4) /\
       op_open o w path flags mode = Some (as_int v, w4)).
