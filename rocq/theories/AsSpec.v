(** What an author of a patch expects of the built-in system calls, and what a compiler may
    do with the statements they are made of. *)
From Coq Require Import ZArith List Bool.
From Verif Require Import Word InsnModel AsModel.
Import ListNotations.
Open Scope Z_scope.

(** ** The system calls, by the tables of the kernel *)

Definition nr_write (a : arch) := match a with X86_64 => 1 | AARCH64 => 64 end.
Definition nr_nanosleep (a : arch) := match a with X86_64 => 35 | AARCH64 => 101 end.
Definition nr_exit (a : arch) := match a with X86_64 => 60 | AARCH64 => 93 end.
Definition nr_exit_group (a : arch) := match a with X86_64 => 231 | AARCH64 => 94 end.

Definition arg (c : call) (n : nat) : Z := nth n (c_args c) 0.

(** The call is the one asked for.  The kernel takes a descriptor and a status as 32 bits. *)
Definition asks (a : arch) (rq : request) (c : call) : Prop :=
  match rq with
  | Sleep sec ts => c_nr c = nr_nanosleep a /\ arg c 0 = ts /\ arg c 1 = 0 /\
                    ld 8 (c_mem c) ts = sec /\ ld 8 (c_mem c) (ts + 8) = 0
  | Exit v => c_nr c = nr_exit a /\ u32 (arg c 0) = u32 v
  | Write fd msg len => c_nr c = nr_write a /\ u32 (arg c 0) = u32 fd /\ arg c 1 = msg /\ arg c 2 = len
  end.

(** ** What the compiler may do *)

Definition sp_of (a : arch) := match a with X86_64 => RSP | AARCH64 => ASP end.

(** General registers. *)
Definition general (a : arch) (r : Z) : Prop :=
  match a with X86_64 => 0 <= r < 16 /\ r <> RSP | AARCH64 => 0 <= r <= 30 end.

(** Constraint "r" for inputs and outputs; "g" where the macro says so. *)
Definition in_reg (a : arch) (o : src) : Prop := match o with Sreg r => general a r | Simm _ => False end.
Definition in_any (a : arch) (o : src) : Prop := match o with Sreg r => general a r | Simm _ => True end.

Definition holds64 (s : state) (o : src) (v : Z) : Prop := val s o = v.
Definition holds32 (s : state) (o : src) (v : Z) : Prop := u32 (val s o) = u32 v.

(** Every input is where the choice says. *)
Definition inputs (a : arch) (rq : request) (ch : choice) (s : state) : Prop :=
  match rq with
  | Sleep _ ts => in_reg a (ch_in ch 0) /\ holds64 s (ch_in ch 0) ts /\
                  (a = AARCH64 -> in_any a (ch_in ch 1) /\ holds64 s (ch_in ch 1) 0)
  | Exit v => in_reg a (ch_in ch 0) /\ holds32 s (ch_in ch 0) v
  | Write fd msg len => in_reg a (ch_in ch 0) /\ holds32 s (ch_in ch 0) fd /\ in_reg a (ch_in ch 1) /\ holds64 s (ch_in ch 1) msg /\
                        in_reg a (ch_in ch 2) /\ holds64 s (ch_in ch 2) len
  end.
Definition output (a : arch) (ch : choice) (s : state) : Prop :=
  match ch_out ch with
  | Lreg r => general a r
  | Lmem x => a = AARCH64 /\ gp s ASP <= x
  end.

(** A statement that has outputs and is not volatile may be left out if no output is used:
    all but the exit of aarch64 have one. *)
Definition has_output (a : arch) (rq : request) : Prop :=
  match a, rq with AARCH64, Exit _ => False | _, _ => True end.
Definition may_drop (a : arch) (rq : request) (used : bool) : Prop := has_output a rq /\ used = false.

Definition compiled (a : arch) (rq : request) (used : bool) (ch : choice) (s : state) : Prop :=
  inputs a rq ch s /\ output a ch s /\ (ch_drop ch = true -> may_drop a rq used).

(** Registers hold 64 bits, the stack has room, the values are those of their types; on
    aarch64 nothing of use is below the stack pointer. *)
Definition good_state (a : arch) (rq : request) (s : state) : Prop :=
  live s = true /\ (forall r, 0 <= gp s r < 2 ^ 64) /\ 64 <= gp s (sp_of a) /\
  match rq with
  | Sleep sec ts => 0 <= sec < 2 ^ 63 /\ (a = AARCH64 -> gp s ASP <= ts)
  | _ => True
  end.

(** No operand is in a register that the statement overwrites before it is read. *)
Definition apart (a : arch) (rq : request) (ch : choice) : Prop :=
  match a, rq with
  | X86_64, Write _ _ _ => ch_in ch 1 <> Sreg RDI /\ ch_in ch 2 <> Sreg RDI /\ ch_in ch 2 <> Sreg RSI
  | AARCH64, Sleep _ _ => ch_in ch 1 <> Sreg 0
  | AARCH64, Write _ _ _ => ch_in ch 1 <> Sreg 0 /\ ch_in ch 2 <> Sreg 0 /\ ch_in ch 2 <> Sreg 1
  | _, _ => True
  end.

(** Below the stack pointer, where the statement itself may write. *)
Definition scratch (a : arch) (s : state) (x : Z) : Prop :=
  match a with X86_64 => False | AARCH64 => gp s ASP - 32 <= x < gp s ASP end.

(** The registers that change. *)
Definition changed (a : arch) (rq : request) : list Z :=
  match a, rq with
  | X86_64, Sleep _ _ => [RDI; RSI; RAX; RCX; R11]
  | X86_64, Exit _ => [RDI; RAX; RCX; R11]
  | X86_64, Write _ _ _ => [RDI; RSI; RDX; RAX; RCX; R11]
  | AARCH64, Exit _ => [0; 8]
  | AARCH64, Sleep _ _ => [8]
  | AARCH64, Write _ _ _ => [2; 8]
  end.

(** The kernel keeps its hands off the stack below the stack pointer. *)
Definition spares (k : kernel) (lo hi : Z) : Prop :=
  forall c r m, k c = Some (r, m) -> forall x, lo <= x < hi -> m x = c_mem c x.

(** ** The greeting *)

Definition text_hello : list Z := [72; 101; 108; 108; 111; 10].
(** What a terminal shows: NUL bytes are not shown. *)
Definition shown (l : list Z) : list Z := filter (fun b => negb (b =? 0)) l.
(** write(1, p, n) of these bytes. *)
Definition writes_bytes (a : arch) (c : call) (l : list Z) : Prop :=
  c_nr c = nr_write a /\ u32 (arg c 0) = 1 /\ arg c 2 = Z.of_nat (List.length l) /\
  bytes_at (c_mem c) (arg c 1) (List.length l) = l.

(** ** The end of a process *)

(** The threads of a process after a thread made the call; None: the process has ended. *)
Definition after_exit (a : arch) (threads : nat) (c : call) : option nat :=
  if c_nr c =? nr_exit_group a then None
  else if c_nr c =? nr_exit a then match threads with S (S n) => Some (S n) | _ => None end
  else Some threads.

(** The registers the greeting changes, and how far below the stack pointer it writes. *)
Definition hello_changed (a : arch) : list Z :=
  match a with X86_64 => [RAX; RDI; RSI; RDX; RCX; R11] | AARCH64 => [0; 1; 2; 8] end.
Definition hello_depth (a : arch) : Z := match a with X86_64 => 16 | AARCH64 => 32 end.
