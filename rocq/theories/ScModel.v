(** Remote system calls: src/task/syscall.c, src/task/memcpy.c, src/arch/*/regs.h.

    The target process is its registers, its memory and whether it is attached.
    What the kernel and the running target answer is an environment: every ptrace
    request, wait, read and write asks it once, with the number of requests made so
    far, so that any pattern of failures can occur.  Registers are numbered in the
    order of the fields of struct user_regs_struct.  A register or memory is a total
    function; accesses to unmapped memory appear as failing or short transfers. *)
From Coq Require Import ZArith String List Bool.
From Verif Require Import Word Str.
Import ListNotations.
Open Scope Z_scope.

Definition regs := Z -> Z.
Definition setr (r : regs) (i v : Z) : regs := fun x => if x =? i then v else r x.

(** Registers of x86_64 (sys/user.h). *)
Definition R15 := 0. Definition R14 := 1. Definition R13 := 2. Definition R12 := 3.
Definition RBP := 4. Definition RBX := 5. Definition R11 := 6. Definition R10 := 7.
Definition R9 := 8. Definition R8 := 9. Definition RAX := 10. Definition RCX := 11.
Definition RDX := 12. Definition RSI := 13. Definition RDI := 14. Definition ORIG_RAX := 15.
Definition RIP := 16. Definition CS := 17. Definition EFLAGS := 18. Definition RSP := 19.

(** Registers of aarch64: regs[0..30] are 0..30, then sp, pc, pstate. *)
Definition SP := 31. Definition PC := 32. Definition PSTATE := 33.

(** What differs between the architectures: SYSCALL_INSTR (x86_64/instruments.h 41-43,
    aarch64/instruments.h 19-21), the register of the number and those of the arguments
    (SYSCALL_REGS_PREPARE, x86_64/regs.h 8-16, aarch64/regs.h 9-17), SYSCALL_RET,
    SYSCALL_IP, and the registers copied by copy_regs (syscall.c 40-85). *)
Record arch := Arch { a_code : list Z; a_nr : Z; a_args : list Z; a_ret : Z; a_ip : Z; a_copied : list Z }.

Definition x86_arch : arch :=
  Arch [0x0f; 0x05; 0xcc] RAX [RDI; RSI; RDX; R10; R8; R9] RAX RIP
    [R15; R14; R13; R12; RBP; RBX; R11; R10; R9; R8; RAX; RCX; RDX; RSI; RDI].

Definition a64_arch : arch :=
  Arch [0x01; 0x00; 0x00; 0xd4; 0xa0; 0x00; 0x20; 0xd4] 8 [0; 1; 2; 3; 4; 5] 0 PC
    [0; 1; 2; 3; 4; 5; 8; 29; 9; 10; 11; 12; 13; 14; 15; 16; 17; 18; 19; 20].

Record target := Tg { t_regs : regs; t_mem : mem; t_attached : bool }.

(** The target's answer to PTRACE_CONT followed by waitpid: the wait fails, the target
    stops with a signal, or it ends ([WEnded (Some s)] by signal s). *)
Inductive wres :=
| WFail
| WStopped (sig : Z) (r : regs) (m : mem)
| WEnded (sig : option Z) (r : regs) (m : mem).

Record env := Env {
  e_getregs : nat -> option Z;               (* Some errno: fails *)
  e_setregs : nat -> option Z;
  e_read : nat -> Z -> Z -> option Z;        (* address, size: number of bytes, None: -1 *)
  e_write : nat -> Z -> Z -> option Z;
  e_cont : nat -> option Z;
  e_wait : nat -> regs -> mem -> Z -> wres;  (* with the signal delivered *)
  e_attach : nat -> option Z;
  e_attach_wait : nat -> regs -> mem -> wres;
  e_detach : nat -> option Z;
  e_junk : Z -> Z                            (* uninitialised bytes *)
}.

(** The target, the number of requests so far, and the state and signal at each PTRACE_CONT. *)
Record world := W { w_t : target; w_n : nat; w_conts : list (regs * mem * Z) }.

Definition tick (w : world) : world := W (w_t w) (S (w_n w)) (w_conts w).
Definition set_t (w : world) (t : target) : world := W t (w_n w) (w_conts w).

(** Bytes as C arrays: index to value. *)
Definition arr := Z -> Z.
Definition of_list (l : list Z) : arr := fun i => if (0 <=? i) && (i <? Z.of_nat (List.length l)) then nth (Z.to_nat i) l 0 else 0.

(** memcpy_from_task, memcpy.c 66-77 (pread of /proc/PID/mem): the return value and the
    buffer, of which the bytes not transferred keep their value. *)
Definition memcpy_from_task (e : env) (w : world) (dst : arr) (src size : Z) : Z * arr * world :=
  match e_read e (w_n w) src size with
  | None => (-1, dst, tick w)
  | Some k => (k, (fun i => if (0 <=? i) && (i <? k) then t_mem (w_t w) (src + i) else dst i), tick w)
  end.

(** memcpy_to_task, memcpy.c 79-91. *)
Definition memcpy_to_task (e : env) (w : world) (dst : Z) (src : arr) (size : Z) : Z * world :=
  match e_write e (w_n w) dst size with
  | None => (-1, tick w)
  | Some k =>
      let m := t_mem (w_t w) in
      let m' := fun a => if (dst <=? a) && (a <? dst + k) then src (a - dst) else m a in
      (k, tick (set_t w (Tg (t_regs (w_t w)) m' (t_attached (w_t w)))))
  end.

(** copy_regs, syscall.c 40-85. *)
Definition copy_regs (a : arch) (dst src : regs) : regs :=
  fold_left (fun d i => setr d i (src i)) (a_copied a) dst.

(** SYSCALL_REGS_PREPARE on zeroed registers, syscall.c 139, 150-151. *)
Definition prepare (a : arch) (nr : Z) (args : list Z) : regs :=
  fold_left (fun r p => setr r (fst p) (snd p)) (combine (a_args a) args) (setr (fun _ => 0) (a_nr a) (u64 nr)).

Definition SIGTRAP := 5. Definition SIGSTOP := 19. Definition SIGSEGV := 11.

(** wait_for_stop, syscall.c 92-127. *)
Fixpoint wait_for_stop (fuel : nat) (e : env) (w : world) (status : Z) : option (Z * world) :=
  match fuel with
  | O => None
  | S fuel' =>
      match e_cont e (w_n w) with
      | Some _ => Some (-1, tick w)
      | None =>
          let w := W (w_t w) (S (w_n w)) (w_conts w ++ [(t_regs (w_t w), t_mem (w_t w), status)]) in
          match e_wait e (w_n w) (t_regs (w_t w)) (t_mem (w_t w)) status with
          | WFail => Some (-1, tick w)
          | WStopped sig r m =>
              let w := tick (set_t w (Tg r m (t_attached (w_t w)))) in
              if (sig =? SIGSTOP) || (sig =? SIGTRAP) then Some (0, w)
              else if sig =? SIGSEGV then Some (-1, w)
              else wait_for_stop fuel' e w sig
          | WEnded s r m =>
              let w := tick (set_t w (Tg r m (t_attached (w_t w)))) in
              wait_for_stop fuel' e w (match s with Some x => x | None => 0 end)
          end
      end
  end.

(** PTRACE_GETREGS / PTRACE_SETREGS. *)
Definition getregs (e : env) (w : world) : option Z * regs * world :=
  (e_getregs e (w_n w), t_regs (w_t w), tick w).
Definition setregs (e : env) (w : world) (r : regs) : option Z * world :=
  match e_setregs e (w_n w) with
  | Some x => (Some x, tick w)
  | None => (None, tick (set_t w (Tg r (t_mem (w_t w)) (t_attached (w_t w)))))
  end.

(** task_syscall, syscall.c 129-240: return value, *res afterwards, world.  [res] is
    what *res held before.  The value left in ret by a failing request is -errno. *)
Definition task_syscall (fuel : nat) (a : arch) (e : env) (libc_base : Z) (w : world) (nr : Z) (args : list Z) (res : Z)
  : option (Z * Z * world) :=
  let size := Z.of_nat (List.length (a_code a)) in
  let syscall_regs := prepare a nr args in
  let '(err, old_regs, w) := getregs e w in
  match err with
  | Some x => Some (- x, res, w)
  | None =>
      let '(_, orig_code, w) := memcpy_from_task e w (e_junk e) libc_base size in
      let '(_, w) := memcpy_to_task e w libc_base (of_list (a_code a)) size in
      let poke_back ret res w :=
        let '(_, w) := memcpy_to_task e w libc_base orig_code size in Some (ret, res, w) in
      let rg := setr old_regs (a_ip a) libc_base in
      let rg := copy_regs a rg syscall_regs in
      let '(err, w) := setregs e w rg in
      match err with
      | Some x => poke_back (- x) res w
      | None =>
          match wait_for_stop fuel e w 0 with
          | None => None
          | Some (ret, w) =>
              if ret <? 0 then poke_back ret res w
              else
                let '(err, rg, w) := getregs e w in
                match err with
                | Some x => poke_back (- x) res w
                | None =>
                    let '(err, w) := setregs e w old_regs in
                    match err with
                    | Some x => poke_back (- x) res w
                    | None => poke_back 0 (rg (a_ret a)) w
                    end
                end
          end
      end
  end.

(** System call numbers (asm/unistd.h): x86_64, aarch64. *)
Record nrs := Nrs { nr_mmap : Z; nr_munmap : Z; nr_mprotect : Z; nr_msync : Z; nr_open : Z; nr_close : Z; nr_ftruncate : Z }.
Definition x86_nrs := Nrs 9 11 10 26 2 3 77.
Definition a64_nrs := Nrs 222 215 226 227 56 57 46.

Section Calls.
Variable fuel : nat.
Variable a : arch.
Variable nn : nrs.
Variable e : env.
Variable libc : Z.
(** The uninitialised local variable [result]. *)
Variable garbage : Z.

Notation "r <- x ;; b" := (match x with Some r => b | None => None end) (at level 100, x at next level, right associativity).

(** task_mmap, syscall.c 242-254. *)
Definition task_mmap (w : world) (addr length prot flags fd offset : Z) : option (Z * world) :=
  r <- task_syscall fuel a e libc w (nr_mmap nn) [addr; length; u64 prot; u64 flags; u64 fd; u64 offset] garbage ;;
  let '(ret, result, w) := r in
  if ret <? 0 then Some (0, w) else Some (result, w).

(** task_munmap, syscall.c 256-265; the unsigned long result is returned as int. *)
Definition task_munmap (w : world) (addr size : Z) : option (Z * world) :=
  r <- task_syscall fuel a e libc w (nr_munmap nn) [addr; size; 0; 0; 0; 0] garbage ;;
  let '(ret, result, w) := r in
  if ret <? 0 then Some (-1, w) else Some (s32 result, w).

(** task_mprotect, syscall.c 267-278. *)
Definition task_mprotect (w : world) (addr len prot : Z) : option (Z * world) :=
  r <- task_syscall fuel a e libc w (nr_mprotect nn) [addr; len; u64 prot; 0; 0; 0] garbage ;;
  let '(ret, result, w) := r in
  if ret <? 0 then Some (-1, w) else Some (s32 result, w).

(** task_msync, syscall.c 280-291. *)
Definition task_msync (w : world) (addr len flags : Z) : option (Z * world) :=
  r <- task_syscall fuel a e libc w (nr_msync nn) [addr; len; u64 flags; 0; 0; 0] garbage ;;
  let '(ret, result, w) := r in
  if ret <? 0 then Some (-1, w) else Some (s32 result, w).

(** task_malloc, syscall.c 303-313; PROT_READ|PROT_WRITE = 3, MAP_PRIVATE|MAP_ANONYMOUS = 0x22. *)
Definition task_malloc (w : world) (length : Z) : option (Z * world) :=
  r <- task_mmap w 0 length 3 0x22 (-1) 0 ;;
  let '(remote_addr, w) := r in
  if remote_addr =? u64 (-1) then Some (0, w) else Some (remote_addr, w).

(** task_free, syscall.c 315-318. *)
Definition task_free (w : world) (addr length : Z) : option (Z * world) := task_munmap w addr length.

(** task_open, syscall.c 320-340; [path] without its terminating NUL.  AT_FDCWD is -100. *)
Definition task_open (x86 : bool) (w : world) (path : list Z) (flags mode : Z) : option (Z * world) :=
  let name_len := Z.of_nat (List.length path) + 1 in
  r <- task_malloc w name_len ;;
  let '(name, w) := r in
  let '(_, w) := memcpy_to_task e w name (of_list (path ++ [0])) name_len in
  r <- task_syscall fuel a e libc w (nr_open nn)
         (if x86 then [name; u64 flags; u64 mode; 0; 0; 0] else [u64 (-100); name; u64 flags; u64 mode; 0; 0]) garbage ;;
  let '(_, result, w) := r in
  r <- task_free w name name_len ;;
  Some (s32 result, snd r).

(** __should_skip_remote_fd, syscall.c 353-366. *)
Definition should_skip_remote_fd (fd : Z) : bool := (fd =? 0) || (fd =? 1) || (fd =? 2).

(** task_close, syscall.c 368-376: result | ret, returned as int. *)
Definition task_close (w : world) (remote_fd : Z) : option (Z * world) :=
  if should_skip_remote_fd remote_fd then Some (- EINVAL, w)
  else
    r <- task_syscall fuel a e libc w (nr_close nn) [u64 remote_fd; 0; 0; 0; 0; 0] garbage ;;
    let '(ret, result, w) := r in
    Some (s32 (Z.lor result (u64 ret)), w).

(** task_ftruncate, syscall.c 378-390. *)
Definition task_ftruncate (w : world) (remote_fd length : Z) : option (Z * world) :=
  if should_skip_remote_fd remote_fd then Some (- EINVAL, w)
  else
    r <- task_syscall fuel a e libc w (nr_ftruncate nn) [u64 remote_fd; u64 length; 0; 0; 0; 0] garbage ;;
    let '(ret, result, w) := r in
    if ret <? 0 then Some (0, w) else Some (s32 result, w).
End Calls.

(** The wait loop of task_attach, core.c 692-718.  Which error
    number is returned when waitpid fails (697) is not modelled: -1. *)
Fixpoint attach_loop (fuel : nat) (e : env) (w : world) : option (Z * world) :=
  match fuel with
  | O => None
  | S fuel' =>
      match e_attach_wait e (w_n w) (t_regs (w_t w)) (t_mem (w_t w)) with
      | WFail => Some (-1, tick w)
      | WStopped sig r m =>
          let w := tick (set_t w (Tg r m (t_attached (w_t w)))) in
          if sig =? SIGSTOP then Some (0, w)
          else match e_cont e (w_n w) with Some x => Some (- x, tick w) | None => attach_loop fuel' e (tick w) end
      | WEnded _ r m =>
          let w := tick (set_t w (Tg r m (t_attached (w_t w)))) in
          match e_cont e (w_n w) with Some x => Some (- x, tick w) | None => attach_loop fuel' e (tick w) end
      end
  end.

(** task_attach, core.c 681-721. *)
Definition task_attach (fuel : nat) (e : env) (w : world) : option (Z * world) :=
  match e_attach e (w_n w) with
  | Some x => Some (- x, tick w)
  | None => attach_loop fuel e (tick (set_t w (Tg (t_regs (w_t w)) (t_mem (w_t w)) true)))
  end.

(** task_detach, core.c 723-733. *)
Definition task_detach (e : env) (w : world) : Z * world :=
  match e_detach e (w_n w) with
  | Some x => (- x, tick w)
  | None => (0, tick (set_t w (Tg (t_regs (w_t w)) (t_mem (w_t w)) false)))
  end.

(** create_mmap_vma_file, patch.c 306-367.  [span] is the address chosen by
    find_vma_span_area (C09); reading the memory map again (360) does not touch the
    target.  The result is the return value and info->target_hdr if it was set. *)
Definition create_mmap_vma_file (fuel : nat) (a : arch) (nn : nrs) (x86 : bool) (e : env) (libc garbage : Z)
    (w : world) (path : list Z) (map_len span : Z) : option (Z * option Z * world) :=
  match task_attach fuel e w with
  | None => None
  | Some (ret, w) =>
      if negb (ret =? 0) then Some (ret, None, w)
      else match task_open fuel a nn e libc garbage x86 w path 2 420 with
      | None => None
      | Some (map_fd, w) =>
          if map_fd <=? 0 then Some (-1, None, w)
          else match task_ftruncate fuel a nn e libc garbage w map_fd map_len with
          | None => None
          | Some (ret, w) =>
              match (if negb (ret =? 0) then Some (- EFAULT, None, w)
                     else match task_mmap fuel a nn e libc garbage w span map_len 7 1 map_fd 0 with
                          | None => None
                          | Some (map_v, w) => if map_v =? 0 then Some (- EFAULT, None, w) else Some (ret, Some map_v, w)
                          end) with
              | None => None
              | Some (ret, hdr, w) =>
                  match task_close fuel a nn e libc garbage w map_fd with
                  | None => None
                  | Some (_, w) => Some (ret, hdr, snd (task_detach e w))
                  end
              end
          end
      end
  end.

(** delete_mmap_vma_file, patch.c 369-380. *)
Definition delete_mmap_vma_file (fuel : nat) (a : arch) (nn : nrs) (e : env) (libc garbage : Z)
    (w : world) (target_hdr len : Z) : option world :=
  match task_attach fuel e w with
  | None => None
  | Some (ret, w) =>
      if negb (ret =? 0) then Some w
      else match task_munmap fuel a nn e libc garbage w target_hdr len with
      | None => None
      | Some (_, w) => Some (snd (task_detach e w))
      end
  end.
