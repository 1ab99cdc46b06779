(** Calling conventions and what a tracing trampoline has to keep. *)
From Coq Require Import ZArith List Bool.
From Verif Require Import Word TrModel.
Import ListNotations.
Open Scope Z_scope.

Definition valid_cpu (c : cpu) : Prop := (forall i, 0 <= gp c i < 2 ^ 64) /\ (forall i, 0 <= vr c i < 2 ^ 128).

(** A function that obeys the System V AMD64 convention and does not write to the frames
    of its callers between its return address and [hi]: it returns, keeps rbx, rbp and
    r12 to r15.  Everything else is its own business. *)
Definition x86_conforming (hook : cpu -> cpu) (hi : Z) : Prop := forall c,
  gp (hook c) RSP = u64 (gp c RSP + 8) /\
  (forall r, In r [RBX; RBP; 12; 13; 14; 15] -> gp (hook c) r = gp c r) /\
  (forall a, gp c RSP + 8 <= a < hi -> me (hook c) a = me c a) /\
  ((forall i, 0 <= gp c i < 2 ^ 64) -> forall i, 0 <= gp (hook c) i < 2 ^ 64).

(** The convention of aarch64 (AAPCS64): x19 to x29 and sp are kept; of the vector registers
    only the low halves of v8 to v15 are. *)
Definition a64_conforming (hook : cpu -> cpu) (hi : Z) : Prop := forall c,
  gp (hook c) ASP = gp c ASP /\
  (forall r, 19 <= r <= 29 -> gp (hook c) r = gp c r) /\
  (forall i, 8 <= i <= 15 -> vr (hook c) i mod 2 ^ 64 = vr c i mod 2 ^ 64) /\
  (forall a, gp c ASP <= a < hi -> me (hook c) a = me c a) /\
  ((forall i, 0 <= gp c i < 2 ^ 64) -> forall i, 0 <= gp (hook c) i < 2 ^ 64).

(** 64-bit words in memory. *)
Definition word_at (m : mem) (a v : Z) : Prop := ld 8 m a = v.
