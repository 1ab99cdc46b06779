(** What the signal properties mean. *)
From Coq Require Import ZArith String List Bool.
From Verif Require Import Word Str ScModel ScSpec SgModel.
Import ListNotations.
Open Scope Z_scope.

(** The process was stopped by signal [s], and when it ran on it was not given [s]. *)
Definition lost (log : list event) (s : Z) : Prop :=
  exists l1 l2, log = l1 ++ Stopped s :: l2 /\ (forall l3, l2 <> Resumed (Some s) :: l3).

(** The process was given a signal [s] that had not just been reported. *)
Definition invented (log : list event) (s : Z) : Prop :=
  exists l1 l2, log = l1 ++ Resumed (Some s) :: l2 /\
    last l1 (Resumed None) <> Stopped s /\ last l1 (Resumed None) <> Gone (Some s).

(** ** A process that gets signals *)

(** Signals [l] are reported, one after the other, by the waits whose request numbers
    are [n], [n] + 2, ... (every other request is the PTRACE_CONT between them). *)
Inductive arrivals (arrive : nat -> option Z) : nat -> list Z -> Prop :=
| arrivals_nil : forall n, arrive n = None -> arrivals arrive n []
| arrivals_cons : forall n s l, arrive n = Some s -> arrivals arrive (S (S n)) l -> arrivals arrive n (s :: l).

(** The target does what the processor does, except that wait number [n] reports signal
    [s] before the process ran any further when [arrive n = Some s]; a signal handed back
    to the process has effect [h s] on its memory (a handler that returns, or nothing).
    Nothing fails. *)
Definition runs_signals (exec : regs -> mem -> option (regs * mem)) (arrive : nat -> option Z) (h : Z -> mem -> mem) (e : env) : Prop :=
  (forall n, e_getregs e n = None) /\ (forall n, e_setregs e n = None) /\ (forall n, e_cont e n = None) /\
  (forall n a s, e_read e n a s = Some s /\ e_write e n a s = Some s) /\
  (forall n r m sig,
     let m1 := if sig =? 0 then m else h sig m in
     match arrive n with
     | Some s => e_wait e n r m sig = WStopped s r m1
     | None => forall r' m', exec r m1 = Some (r', m') -> e_wait e n r m sig = WStopped SIGTRAP r' m'
     end).

(** The handlers do not touch the [size] bytes at [base]. *)
Definition handlers_keep (h : Z -> mem -> mem) (base size : Z) : Prop :=
  forall s m x, within base size x -> h s m x = m x.

(** Neither of the two signals that also end a remote call, nor a memory fault. *)
Definition harmless (s : Z) : Prop := s <> 0 /\ s <> SIGSTOP /\ s <> SIGTRAP /\ s <> SIGSEGV.

(** The kernel is entered once, with the requested number and arguments, after the
    handlers of the signals [l] ran in this order; result and effect are the kernel's,
    and the registers and the borrowed code are as before; every signal was handed to
    the process once. *)
Definition undisturbed (a : arch) (k : kernel) (e : env) (h : Z -> mem -> mem) (base : Z) (w : world) (nr : Z) (args l : list Z) : Prop :=
  let size := Z.of_nat (List.length (a_code a)) in
  forall fuel res, (List.length l < fuel)%nat -> exists m1 w',
    (forall x, ~ within base size x -> m1 x = t_mem (w_t w) x) /\
    (let m0 := fold_left (fun m s => h s m) l m1 in
     task_syscall fuel a e base w nr args res = Some (0, fst (k (u64 nr) args m0), w') /\
     (forall x, ~ within base size x -> t_mem (w_t w') x = snd (k (u64 nr) args m0) x)) /\
    t_regs (w_t w') = t_regs (w_t w) /\ t_attached (w_t w') = t_attached (w_t w) /\
    (forall x, within base size x -> t_mem (w_t w') x = t_mem (w_t w) x) /\
    map snd (w_conts w') = map snd (w_conts w) ++ 0 :: l.
