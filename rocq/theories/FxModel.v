(** The remaining remote system calls: task_fstat and task_prctl, task/syscall.c 392-429. *)
From Coq Require Import ZArith String List Bool.
From Verif Require Import Word Str ScModel.
Import ListNotations.
Open Scope Z_scope.

Section Calls.
Variable fuel : nat.
Variable a : arch.
Variable nn : nrs.
(** __NR_fstat, __NR_prctl (asm/unistd.h) and sizeof(struct stat). *)
Variable nr_fstat : Z.
Variable nr_prctl : Z.
Variable stat_size : Z.
Variable e : env.
Variable libc : Z.
(** The uninitialised local variable [result]. *)
Variable garbage : Z.

Notation "r <- x ;; b" := (match x with Some r => b | None => None end) (at level 100, x at next level, right associativity).

(** task_fstat, syscall.c 392-415: what is returned, *statbuf afterwards, the world. *)
Definition task_fstat (w : world) (remote_fd : Z) (statbuf : arr) : option (Z * arr * world) :=
  r <- task_malloc fuel a nn e libc garbage w stat_size ;;
  let '(remote_statbuf, w) := r in
  r <- task_syscall fuel a e libc w nr_fstat [u64 remote_fd; remote_statbuf; 0; 0; 0; 0] garbage ;;
  let '(ret_fstat, _, w) := r in
  let '(_, statbuf, w) := memcpy_from_task e w statbuf remote_statbuf stat_size in
  r <- task_free fuel a nn e libc garbage w remote_statbuf stat_size ;;
  Some (ret_fstat, statbuf, snd r).

(** task_prctl, syscall.c 417-429. *)
Definition task_prctl (w : world) (option arg2 arg3 arg4 arg5 : Z) : Datatypes.option (Z * world) :=
  r <- task_syscall fuel a e libc w nr_prctl [u64 option; arg2; arg3; arg4; arg5; 0] garbage ;;
  let '(ret, result, w) := r in
  if ret <? 0 then Some (0, w) else Some (s32 result, w).
End Calls.

(** x86_64: fstat 5, prctl 157, 144 bytes; aarch64: fstat 80, prctl 167, 128 bytes. *)
Definition x86_fstat fuel e libc garbage := task_fstat fuel x86_arch x86_nrs 5 144 e libc garbage.
Definition a64_fstat fuel e libc garbage := task_fstat fuel a64_arch a64_nrs 80 128 e libc garbage.
Definition x86_prctl fuel e libc garbage := task_prctl fuel x86_arch 157 e libc garbage.
Definition a64_prctl fuel e libc garbage := task_prctl fuel a64_arch 167 e libc garbage.
